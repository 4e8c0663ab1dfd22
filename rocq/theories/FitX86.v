(** The x86 handlers are well-behaved, and its directive is mild. *)
From Coq Require Import Lia.
From Verif Require Import Py PyFacts Utils Tokenizer State Assembler Instr X86.
From Verif Require Import SpecUtils SpecExec SpecLink SpecCpu Events CpuFacts CartFacts FitFacts X86Facts.
Local Open Scope Z_scope.

Lemma pure_bits : forall B (R : B -> list labeldata -> Prop) (k : Z -> Z -> M B),
  (forall z b, pure R (k z b)) -> pure R (bind get (fun s => k (pc s) (x86_bits s))).
Proof.
  intros B R k H s. destruct (H (pc s) (x86_bits s) s) as (ds & r & H1 & H2 & H3). exists ds, r. split; [|auto].
  intros s2 V. unfold bind, get. assert (E : pc s2 = pc s) by (destruct V as (_ & A & C & _); unfold pc; congruence).
  assert (E2 : x86_bits s2 = x86_bits s) by apply V. rewrite E, E2. auto.
Qed.

(** ** Operands *)
Definition one_read (r : xresult) (ds : list labeldata) : Prop :=
  match r with None => ds = [] | Some (_, base, b, _) => Forall is_byte b /\ placed (zlen base + zlen b) ds end.
Ltac fine := first [apply placed_nil | apply placed_one; cbn; packed; rewrite ?zlen_app; repeat out_len; lia].
Ltac all_bytes := rewrite ?Forall_app; repeat split; packed; eapply struct_pack_byte; eassumption.
Ltac value := eapply pure_bind; [apply pure_poil; sound|]; intros ? ? [-> |[-> ->]].
Ltac packs := eapply pure_bind; [apply pure_lift|]; intros ? ? [? ->]; apply pure_ret; cbn [one_read app]; split; [all_bytes|fine].
Lemma pure_key : forall v, pure (fun x ds => ds = [] /\ v = Some x) (xkey v).
Proof. intros [z|]; cbn [xkey]; [apply pure_ret; auto|apply pure_praise]. Qed.
Lemma modrm_pure : forall base m, pure (fun b ds => Forall is_byte b /\ placed (zlen base + zlen b) ds /\ (xm_disp m = None -> ds = [])) (x_modrm base m).
Proof.
  intros base m. unfold x_modrm. pose proof (zlen_nonneg base) as Z0.
  eapply pure_bind; [apply pure_key|]. intros md ? [-> _]. eapply pure_bind; [apply pure_key|]. intros rg ? [-> _].
  eapply pure_bind; [apply pure_key|]. intros rm ? [-> _]. eapply pure_bind; [apply pure_lift|]. intros v ? [_ ->].
  eapply pure_bind; [apply pure_lift|]. intros blob ? [B ->].
  destruct (xm_disp m) as [d|].
  - eapply pure_bind; [apply pure_key|]. intros bits ? [-> _].
    destruct (bits =? 16); [|destruct (bits =? 32); [|destruct (bits =? 64)]];
      try (value; eapply pure_bind; [apply pure_lift| |apply pure_lift|]; intros b ? [P ->]; apply pure_ret;
        cbn [app]; split; [all_bytes|split; [fine|discriminate]| |split; [fine|discriminate]]; all_bytes).
    apply pure_ret. cbn [app]. split; [all_bytes|split; [fine|discriminate]].
  - apply pure_ret. cbn [app]. split; [all_bytes|]. split; [fine|reflexivity].
Qed.
Lemma build_pure : forall base m, pure (fun b ds => Forall is_byte b /\ placed (zlen base + zlen b) ds /\
    (xm_disp m = None \/ xm_reg m = None -> ds = []) /\ (xm_reg m = None -> b = [])) (x_build_if_reg base m).
Proof.
  intros base m. unfold x_build_if_reg. destruct (xm_reg m) eqn:E.
  - eapply pure_weaken; [apply modrm_pure|]. intros b ds (B & P & D). split; [exact B|]. split; [exact P|]. split; [|discriminate].
    intros [X|X]; [auto|discriminate].
  - apply pure_ret. split; [constructor|]. split; [apply placed_nil|]. auto.
Qed.
Lemma memory_pure : forall tokens base index m, pure one_read (x_memory tokens base index m).
Proof.
  intros tokens base index m. unfold x_memory. destruct (x_index_from _ _ _) as [e|]; [|apply pure_araise].
  destruct (x_memory_mod _) as [[[[md rm] delta] d]|]; [|apply pure_ret; reflexivity]. cbv zeta.
  eapply pure_bind; [apply build_pure|]. intros b ds (B & P & _). apply pure_ret. cbn [one_read]. rewrite app_nil_r. auto.
Qed.
Lemma imm_pure : forall t n base pk m, 1 <= n -> (forall v b, pk [Some v] = Ok b -> Forall is_byte b /\ zlen b = n) -> pure one_read (x_imm t n base pk m).
Proof.
  intros t n base pk m N H. unfold x_imm. pose proof (zlen_nonneg base) as Z0.
  eapply pure_bind; [apply pure_poil|].
  - repeat split; cbn [xlab ld_size ld_bits_size ld_alignment ld_hook ld_bits]; try lia; discriminate.
  - intros v ds O. eapply pure_bind; [apply pure_lift|]. intros b ? [P ->]. apply pure_ret. destruct (H _ _ P) as [B L]. rewrite app_nil_r.
    split; [exact B|]. destruct O as [-> |[_ ->]]; [apply placed_nil|apply placed_one; cbn [xlab ld_size ld_offset]; lia].
Qed.
Lemma pack16 : forall v b, pack_le16u [Some v] = Ok b -> Forall is_byte b /\ zlen b = 2.
Proof. intros v b H. split; [all_bytes|]. packed. out_len. reflexivity. Qed.
Lemma pack32 : forall v b, pack_le32u [Some v] = Ok b -> Forall is_byte b /\ zlen b = 4.
Proof. intros v b H. split; [all_bytes|]. packed. out_len. reflexivity. Qed.
Lemma pack64 : forall v b, pack_le64u [Some v] = Ok b -> Forall is_byte b /\ zlen b = 8.
Proof. intros v b H. split; [all_bytes|]. packed. out_len. reflexivity. Qed.
Ltac token := eapply pure_bind; [apply pure_tok|]; let x := fresh "x" in intros x ? ->.
Ltac nothing := apply pure_ret; reflexivity.
Ltac plain_read := apply pure_ret; split; [constructor|apply placed_nil].
Lemma arg_pure : forall a tokens base index m, (a = AMs -> xm_disp m = None) -> pure one_read (x_run_arg a tokens base index m).
Proof.
  intros a tokens base index m DR. pose proof (zlen_nonneg base) as Z0. destruct a; cbn [x_run_arg].
  - token. destruct (x_register _) as [[size i]|].
    + apply pure_bits with (k := fun _ bits => let (base, m) := x_sized size bits base (xset_rm m 3 i) in
        let! b := x_build_if_reg base m in ret (Some (1%nat, base, b, m))). intros z bits.
      destruct (x_sized _ _ _ _) as [base' m']. eapply pure_bind; [apply build_pure|]. intros b ds (B & P & _). apply pure_ret. cbn [one_read app]. rewrite app_nil_r. auto.
    + destruct (str_eqb _ _); [apply memory_pure|nothing].
  - token. destruct (x_register _) as [[size i]|]; [|nothing].
    apply pure_bits with (k := fun _ bits => let (base, m) := x_sized size bits base (xset_reg m i) in
      if Nat.ltb 1 index then let! b := x_modrm base m in ret (Some (1%nat, base, b, m)) else ret (Some (1%nat, base, [], m))). intros z bits.
    destruct (x_sized _ _ _ _) as [base' m']. destruct (Nat.ltb _ _); [|plain_read].
    eapply pure_bind; [apply modrm_pure|]. intros b ds (B & P & _). apply pure_ret. cbn [one_read app]. rewrite app_nil_r. auto.
  - token. destruct (x_register _) as [[size i]|]; [|nothing].
    apply pure_bits with (k := fun _ bits => ret (Some (1%nat, x_prefix size bits (x_or_last base i), [], xset_bits m size))). intros. plain_read.
  - token. destruct (x_value _); [|nothing]. destruct (xm_bits m) as [bits|]; [|nothing].
    repeat match goal with |- pure _ (match ?v with _ => _ end) => is_var v; destruct v end; try nothing; apply imm_pure; try lia; first [exact pack16|exact pack32].
  - token. apply pure_bits with (k := fun _ bits => if str_eqb (upper x) #"AX" then ret (Some (1%nat, x_prefix 16 bits base, [], xset_bits m 16)) else
      if str_eqb (upper x) #"EAX" then ret (Some (1%nat, x_prefix 32 bits base, [], xset_bits m 32)) else
      if str_eqb (upper x) #"RAX" then ret (Some (1%nat, base, [], xset_bits m 64)) else ret None). intros.
    repeat destruct (str_eqb _ _); first [plain_read|nothing].
  - token. apply pure_bits with (k := fun _ bits => match index_of (upper x) x_regs64 with
      | Some i => let base := x_or_last base (Z.of_nat i) in ret (Some (1%nat, (if bits =? 16 then 0x66 :: base else base), [], xset_bits m 64))
      | None => match index_of (upper x) x_regs16 with
          | Some i => ret (Some (1%nat, x_or_last (x_prefix 16 bits base) (Z.of_nat i), [], xset_bits m 16)) | None => ret None end end). intros.
    repeat destruct (index_of _ _); first [plain_read|nothing].
  - token. destruct (str_eqb _ _); [apply memory_pure|nothing].
  - token. destruct (x_value _); [|nothing]. destruct (xm_bits m) as [bits|]; [|nothing].
    repeat match goal with |- pure _ (match ?v with _ => _ end) => is_var v; destruct v end; try nothing; apply imm_pure; try lia; first [exact pack16|exact pack32|exact pack64].
  - token. destruct (x_value _); [|nothing]. apply pure_bits with (k := fun z bits => if bits =? 16 then
          let! v := parse_integer_or_label x86_p (xlab x 2 16 (zlen base) (z + zlen base + 2)) false in
          let! b := lift (pack_le16u [Some v]) in ret (Some (1%nat, base, b, m))
        else if (bits =? 32) || (bits =? 64) then
          let! v := parse_integer_or_label x86_p (xlab x 2 16 (zlen base) (z + zlen base + 4)) false in
          let! b := lift (pack_le32u [Some v]) in ret (Some (1%nat, base, b, m))
        else ret None). intros. destruct (_ =? 16); [value; packs|]. destruct (_ || _); [value; packs|nothing].
  - destruct (firstn 3 (skipn index tokens)) as [|t1 [|t [|t2 [|]]]]; try nothing. destruct (_ && _); [|nothing]. cbv zeta.
    set (m' := xset_rm _ _ _).
    apply pure_bits with (k := fun _ bits => if bits =? 16 then
        let! b := x_modrm base m' in let! v := parse_integer_or_label x86_p (xlab t 2 16 (zlen base) 0) false in
        let! a := lift (pack_le16u [Some v]) in ret (Some (3%nat, base, b ++ a, m'))
      else if bits =? 32 then
        let! b := x_modrm base m' in let! v := parse_integer_or_label x86_p (xlab t 4 32 (zlen base) 0) false in
        let! a := lift (pack_le32u [Some v]) in ret (Some (3%nat, base, b ++ a, m'))
      else if bits =? 64 then
        let! b := x_modrm base m' in let! v := parse_integer_or_label x86_p (xlab t 8 64 (zlen base) 0) false in
        let! a := lift (pack_le64u [Some v]) in ret (Some (3%nat, base, b ++ a, m'))
      else ret None). intros _ bits.
    assert (D : xm_disp m' = None) by (apply DR; reflexivity).
    destruct (_ =? 16); [|destruct (_ =? 32); [|destruct (_ =? 64); [|nothing]]];
      (eapply pure_bind; [apply modrm_pure|]; intros b ds (B & _ & N); rewrite (N D); pose proof (zlen_nonneg b) as ZB;
       value; (eapply pure_bind; [apply pure_lift|]; intros ? ? [? ->]; apply pure_ret; cbn [one_read app];
       split; [apply Forall_app; split; [exact B|all_bytes]|fine])).
  - token. destruct (index_of _ _); [|nothing]. cbv zeta. eapply pure_bind; [apply build_pure|]. intros b ds (B & P & _). apply pure_ret. cbn [one_read app]. rewrite app_nil_r. auto.
  - token. destruct (index_of _ _); [|nothing]. cbv zeta. destruct (Nat.ltb _ _); [|plain_read].
    eapply pure_bind; [apply modrm_pure|]. intros b ds (B & P & _). apply pure_ret. cbn [one_read app]. rewrite app_nil_r. auto.
  - nothing.
Qed.

(** ** Rows *)
Definition quiet_first (a : arg) : bool := match a with AEvqp | AGvqp | AZvqp | ArAX | AZvq | ARd | ACd | AM => true | _ => false end.
Definition no_ms (a : arg) : bool := match a with AMs => false | _ => true end.
Definition calm (args : list arg) : bool :=
  match args with
  | [] | [_] | APass :: _ => true
  | [a; b] => quiet_first a && no_ms b
  | _ => false
  end.
Definition all_calm : bool := forallb (fun '(_, _, args) => calm args) x86_table.
Lemma calm_true : all_calm = true.
Proof. vm_cast_no_check (eq_refl true). Qed.
Strategy expand [all_calm].
Definition m0 : xrm := Xrm None None None None None.
Lemma first_pure : forall a tokens base, quiet_first a = true ->
  pure (fun r ds => ds = [] /\ match r with Some (_, _, b, _) => b = [] | None => True end) (x_run_arg a tokens base 1 m0).
Proof.
  intros a tokens base Q.
  assert (MM : pure (fun r ds => ds = [] /\ match r with Some (_, _, b, _) => b = [] | None => True end) (x_memory tokens base 1 m0)).
  { unfold x_memory. destruct (x_index_from _ _ _) as [e|]; [|apply pure_araise].
    destruct (x_memory_mod _) as [[[[md rm] delta] d]|]; [|apply pure_ret; auto]. apply pure_ret. auto. }
  destruct a; try discriminate Q; cbn [x_run_arg]; token.
  - destruct (x_register _) as [[size i]|]; [|destruct (str_eqb _ _); [exact MM|apply pure_ret; auto]].
    apply pure_bits with (k := fun _ bits => let (base, m) := x_sized size bits base (xset_rm m0 3 i) in
        let! b := x_build_if_reg base m in ret (Some (1%nat, base, b, m))). intros z bits. apply pure_ret. auto.
  - destruct (x_register _) as [[size i]|]; [|apply pure_ret; auto].
    apply pure_bits with (k := fun _ bits => let (base, m) := x_sized size bits base (xset_reg m0 i) in
      if Nat.ltb 1 1 then let! b := x_modrm base m in ret (Some (1%nat, base, b, m)) else ret (Some (1%nat, base, [], m))). intros z bits. apply pure_ret. auto.
  - destruct (x_register _) as [[size i]|]; [|apply pure_ret; auto].
    apply pure_bits with (k := fun _ bits => ret (Some (1%nat, x_prefix size bits (x_or_last base i), [], xset_bits m0 size))). intros. apply pure_ret. auto.
  - apply pure_bits with (k := fun _ bits => if str_eqb (upper x) #"AX" then ret (Some (1%nat, x_prefix 16 bits base, [], xset_bits m0 16)) else
      if str_eqb (upper x) #"EAX" then ret (Some (1%nat, x_prefix 32 bits base, [], xset_bits m0 32)) else
      if str_eqb (upper x) #"RAX" then ret (Some (1%nat, base, [], xset_bits m0 64)) else ret None). intros.
    repeat destruct (str_eqb _ _); apply pure_ret; auto.
  - apply pure_bits with (k := fun _ bits => match index_of (upper x) x_regs64 with
      | Some i => let base := x_or_last base (Z.of_nat i) in ret (Some (1%nat, (if bits =? 16 then 0x66 :: base else base), [], xset_bits m0 64))
      | None => match index_of (upper x) x_regs16 with
          | Some i => ret (Some (1%nat, x_or_last (x_prefix 16 bits base) (Z.of_nat i), [], xset_bits m0 16)) | None => ret None end end). intros.
    repeat destruct (index_of _ _); apply pure_ret; auto.
  - destruct (str_eqb _ _); [exact MM|apply pure_ret; auto].
  - destruct (index_of _ _); apply pure_ret; auto.
  - destruct (index_of _ _); apply pure_ret; auto.
Qed.
Definition row_out (r : option (bytes * bytes)) (ds : list labeldata) : Prop :=
  match r with None => ds = [] | Some (base, b) => Forall is_byte b /\ placed (zlen base + zlen b) ds end.
Lemma row_pure : forall args tokens base, calm args = true -> pure row_out (x_run_args args tokens base 1 m0 []).
Proof.
  intros args tokens base C. destruct args as [|a [|a2 more]].
  - apply pure_ret. split; [constructor|apply placed_nil].
  - cbn [x_run_args]. eapply pure_bind; [apply arg_pure; reflexivity|].
    intros [[[[d base'] b] m']|] ds O; apply pure_ret; cbn [one_read row_out app] in *; rewrite ?app_nil_r; exact O.
  - destruct a; try (destruct more; [cbn [calm] in C; apply andb_prop in C; destruct C as [Q N]|discriminate C];
      cbn [x_run_args]; eapply pure_bind; [apply first_pure; exact Q|]; intros [[[[d base'] b] m']|] ds [-> O]; [|apply pure_ret; reflexivity];
      rewrite O; cbn [app]; eapply pure_bind; [apply arg_pure; intros ->; discriminate N|];
      intros [[[[d2 base2] b2] m2]|] ds O2; apply pure_ret; cbn [one_read row_out app] in *; rewrite ?app_nil_r; exact O2).
    apply pure_ret. reflexivity.
Qed.
Lemma bytes_length : forall l b, pack_byte (map Some l) = Ok b -> Forall is_byte b /\ zlen b = zlen l.
Proof.
  intros l b H. unfold pack_byte, pack_u in H. split; [eapply struct_pack_byte; eassumption|].
  rewrite (struct_pack_length _ _ _ _ H). clear. induction l as [|x l IH]; [reflexivity|]. cbn [map fold_right]. rewrite IH.
  unfold zlen. cbn [length sf_size]. change (Z.of_nat (sf_size FB)) with 1. lia.
Qed.

(** ** Handlers *)
Definition call_out (r : option bytes) (ds : list labeldata) : Prop :=
  match r with None => ds = [] | Some b => Forall is_byte b /\ placed (zlen b) ds end.
Lemma conditions_pure : forall rep tokens cs, pure call_out rep -> forallb (fun c => calm (snd c)) cs = true -> pure call_out (x_conditions rep tokens cs).
Proof.
  intros rep tokens cs R. induction cs as [|[base args] cs IH]; intros C; [apply pure_ret; reflexivity|].
  cbn [forallb snd] in C. apply andb_prop in C. destruct C as [C1 C2]. specialize (IH C2). destruct args as [|a args].
  - cbn [x_conditions]. token. apply pure_bits with (k := fun _ bits => if str_in (upper x) x_implicit32 && (bits =? 16) then
        let! b := lift (pack_byte [Some 0x66; Some base]) in ret (Some b)
      else if starts_with #"REP" (upper x) then
        let! b := lift (pack_byte [Some base]) in let! r := rep in
        match r with Some x => ret (Some (b ++ x)) | None => praise TypeError end
      else if Nat.eqb (length tokens) 1 then let! b := lift (pack_byte [Some base]) in ret (Some b)
      else araise InvalidOpCodeArguments). intros _ bits.
    destruct (_ && _); [|destruct (starts_with _ _); [|destruct (Nat.eqb _ _); [|apply pure_araise]]].
    + eapply pure_bind; [apply pure_lift|]. intros b ? [P ->]. apply pure_ret. split; [all_bytes|apply placed_nil].
    + eapply pure_bind; [apply pure_lift|]. intros b ? [P ->]. eapply pure_bind; [exact R|]. intros [y|] ds O; [|apply pure_praise].
      apply pure_ret. cbn [call_out app] in *. rewrite app_nil_r. destruct O as [O1 O2]. split; [apply Forall_app; split; [all_bytes|exact O1]|].
      rewrite zlen_app. pose proof (zlen_nonneg b) as Z0. destruct O2 as [O2 O3]. split; [|exact O3]. eapply Forall_impl; [|exact O2]. cbn. intros d ?. lia.
    + eapply pure_bind; [apply pure_lift|]. intros b ? [P ->]. apply pure_ret. split; [all_bytes|apply placed_nil].
  - cbn [x_conditions]. destruct (Nat.ltb _ 2); [exact IH|]. eapply pure_bind; [apply row_pure; exact C1|].
    intros [[base' blob]|] ds O; cbn [row_out] in O; [|subst ds; exact IH].
    eapply pure_bind; [apply pure_lift|]. intros b ? [P ->]. apply bytes_length in P. destruct P as [P1 P2]. apply pure_ret. cbn [call_out].
    rewrite !app_nil_r. split; [apply Forall_app; split; [exact P1|apply O]|]. rewrite zlen_app, P2. apply O.
Qed.
Lemma opcodes_calm : forall k cs, dget str_eqb x86_opcodes k = Some cs -> forallb (fun c => calm (snd c)) cs = true.
Proof.
  intros k cs D. apply forallb_forall. intros [code args] I. destruct (opcodes_rows _ _ _ _ D I) as (name & T).
  pose proof calm_true as C. unfold all_calm in C. rewrite forallb_forall in C. exact (C _ T).
Qed.
Lemma call_pure : forall tokens cs, forallb (fun c => calm (snd c)) cs = true -> pure call_out (x86_call cs tokens).
Proof.
  induction tokens as [|t0 tokens IH]; intros cs C; cbn [x86_call]; apply conditions_pure; auto; [apply pure_praise|].
  destruct tokens as [|t tokens]; [apply pure_praise|]. destruct (dget str_eqb x86_opcodes (upper t)) as [cs'|] eqn:D; [|apply pure_praise].
  apply IH. eapply opcodes_calm; exact D.
Qed.
Lemma bits_mild : mild x86_directive_bits.
Proof.
  intros tokens s.
  assert (SAME : forall s2, put_out s2 (x86_bits s2) [] = s2).
  { intros s2. destruct s2. unfold put_out. cbn. rewrite app_nil_r, Z.add_0_r. reflexivity. }
  assert (FAIL : forall r, (forall s2, same_view s s2 -> x86_directive_bits tokens s2 = (s2, r)) -> exists bits b r, Forall is_byte b /\
    forall s2, same_view s s2 -> x86_directive_bits tokens s2 = (put_out s2 bits b, r)).
  { intros r H. exists (x86_bits s), [], r. split; [constructor|]. intros s2 V. rewrite (H s2 V). pose proof V as (_ & _ & _ & <-). rewrite SAME. reflexivity. }
  unfold x86_directive_bits, tok_at in *. destruct (nth_error tokens 1) as [t|]; [|eapply FAIL; reflexivity].
  destruct (parse_integer x86_p (labels s) t 8 false) as [[v|]|x] eqn:P.
  - destruct ((v =? 16) || (v =? 32) || (v =? 64)) eqn:T.
    + exists v, [], (Ok tt). split; [constructor|]. intros s2 (L & _). unfold bind, ret, m_parse_integer. rewrite L, P, T.
      unfold modify, put_out. f_equal. destruct s2. cbn. rewrite app_nil_r, Z.add_0_r. reflexivity.
    + eapply FAIL. intros s2 (L & _). unfold bind, ret, m_parse_integer. rewrite L, P, T. reflexivity.
  - eapply FAIL. intros s2 (L & _). unfold bind, ret, m_parse_integer. rewrite L, P. reflexivity.
  - eapply FAIL. intros s2 (L & _). unfold bind, ret, m_parse_integer. rewrite L, P. reflexivity.
Qed.
Lemma x86_fits : forall e, fits (x86 e) /\ handlers neat (x86 e).
Proof.
  intros e. assert (H : handlers (fun f => well_behaved f /\ neat f) (x86 e)).
  { intros k f D. rewrite x86_get in D. destruct (dget str_eqb x86_opcodes k) as [cs|] eqn:X; [|discriminate D]. injection D as <-.
    apply pure_handler. intros tokens. eapply pure_weaken; [apply call_pure; eapply opcodes_calm; exact X|].
    intros b ds O x E. subst b. exact O. }
  split; [split; [|split]|].
  - intros k f D. apply (H k f D).
  - intros k b D. rewrite x86_get in D. destruct (dget str_eqb x86_opcodes k); discriminate D.
  - split; [split; reflexivity|]. intros k f D. unfold x86, mk_cfg in D. cbn [c_directives] in D. apply registered in D.
    destruct D as [D|[D|[]]]; [|injection D as <-; exact bits_mild].
    destruct (bare_mk x86_p e []) as [_ B]. exact (B k f D).
  - intros k f D. apply (H k f D).
Qed.
