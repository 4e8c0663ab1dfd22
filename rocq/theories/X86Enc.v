(** The x86 handlers against the manual. *)
From Coq Require Import Lia.
From Verif Require Import Py PyFacts Utils Tokenizer State Assembler Instr X86.
From Verif Require Import SpecUtils SpecExec SpecLink SpecCpu UtilsFacts CpuFacts WordFacts SpecX86 X86Facts.
From Verif Require I86Facts I86Read MosFacts FitX86.
Local Open Scope Z_scope.

(** ** Words *)
Lemma eight : forall X (l : list X) n x, zlen l = 8 -> nth_of l n x ->
  n = 0 \/ n = 1 \/ n = 2 \/ n = 3 \/ n = 4 \/ n = 5 \/ n = 6 \/ n = 7.
Proof. intros X l n x L H. pose proof (I86Facts.nth_of_lt _ _ _ _ H) as B. lia. Qed.
Ltac each H := let C := fresh in
  match type of H with nth_of ?l ?n ?x => assert (C : n = 0 \/ n = 1 \/ n = 2 \/ n = 3 \/ n = 4 \/ n = 5 \/ n = 6 \/ n = 7) by (apply (eight _ l n x); [reflexivity|exact H]) end;
  destruct C as [-> |[-> |[-> |[-> |[-> |[-> |[-> | ->]]]]]]]; destruct H as [_ H];
  match type of H with ?a = Some ?u => let v := eval vm_compute in a in
    match v with Some ?w => change (Some w = Some u) in H; assert (u = w) by congruence; clear H end end.

(** What the operand functions see of the first word of an operand. *)
Definition first_word (o : opd) (t : str) : Prop :=
  match o with
  | Reg size n => (size = 16 \/ size = 32 \/ size = 64) /\ 0 <= n < 8 /\ x_register (upper t) = Some (size, n) /\ x_value t = false /\ t <> #"[" /\ upper t <> #"[" /\
      index_of (upper t) x_cregs = None /\
      index_of (upper t) x_regs16 = (if size =? 16 then Some (Z.to_nat n) else None) /\
      index_of (upper t) x_regs32 = (if size =? 32 then Some (Z.to_nat n) else None) /\
      index_of (upper t) x_regs64 = (if size =? 64 then Some (Z.to_nat n) else None) /\
      (n <> 0 -> upper t <> #"AX" /\ upper t <> #"EAX" /\ upper t <> #"RAX") /\
      (n = 0 -> upper t = if size =? 16 then #"AX" else if size =? 32 then #"EAX" else #"RAX")
  | Ctl n => 0 <= n < 8 /\ x_register (upper t) = None /\ x_value t = false /\ t <> #"[" /\ upper t <> #"[" /\ index_of (upper t) x_cregs = Some (Z.to_nat n)
  | Mem _ _ => t = #"["
  | Val v => t = v /\ x_register (upper t) = None /\ x_value t = true /\ t <> #"[" /\ upper t <> #"[" /\ index_of (upper t) x_cregs = None
  end.
Ltac regs H := each H; match goal with E : upper ?t = _ |- _ => unfold first_word, x_value; rewrite E; repeat split; try lia; try reflexivity; try discriminate;
  try (intros Q; rewrite Q in E; discriminate E); try (intros Q; exfalso; lia); try (vm_compute; discriminate) end.
Lemma word_first : forall o ws, written1 o ws -> exists t r, ws = t :: r /\ first_word o t /\ match o with Mem _ _ => True | _ => r = [] end.
Proof.
  intros o ws W. destruct W as [n t H|n t H|n t H|n t H|m ws H|m ws d H V P|m ws d H V|t V]; eexists; eexists; (split; [reflexivity|]); (split; [|try exact I; try reflexivity]); try reflexivity.
  - regs H.
  - regs H.
  - regs H.
  - regs H.
  - destruct V as (N & B1 & B2). assert (NX : forall l, incl l x_all -> index_of (upper t) l = None).
    { intros l IN. apply I86Facts.index_of_none. intros I. apply N. apply (IN _ I). }
    assert (U : upper t <> #"[") by (intros E; apply B1, I86Facts.upper_bracket, E).
    assert (U2 : upper t <> #"]") by (intros E; apply B2, I86Facts.upper_close, E).
    repeat split; auto.
    + unfold x_register. rewrite !NX; [reflexivity|unfold x_all; intros y I; rewrite !in_app_iff; auto 9..].
    + unfold x_value. replace (str_in _ _) with false; [reflexivity|]. symmetry. apply I86Facts.str_in_false. rewrite in_app_iff.
      intros [I|[E|[E|[]]]]; [exact (N I)|congruence|congruence].
    + apply NX. unfold x_all. intros y I. rewrite !in_app_iff. auto 9.
Qed.

(** ** Places in memory *)
Lemma reg_word_neq : forall d w, value_word d -> str_in (upper w) x_all = true -> str_eqb (upper d) (upper w) = false.
Proof.
  intros d w (N & _ & _) H. apply I86Facts.str_neq. intros E. apply N. rewrite E. change (In (upper w) x_all).
  apply str_in_In. exact H.
Qed.
Ltac words := repeat match goal with E : upper ?t = _ |- context [upper ?t] => rewrite E end.
Ltac combo H := destruct (I86Facts.combos_cases _ _ H) as [(a & p & b & -> & P & C)|(a & -> & C)]; clear H;
  [destruct C as [(-> & X & Y)|[(-> & X & Y)|[(-> & X & Y)|(-> & X & Y)]]]|destruct C as [(-> & X)|[(-> & X)|[(-> & X)|(-> & X)]]]].
Lemma modrm_plain : forall m ws, nth_of combos m (map upper ws) -> x_memory_mod ws = Some (0, m, length ws, None).
Proof.
  intros m ws H. combo H; unfold x_memory_mod; cbn [find x_plain map match_ length Nat.eqb match_all match1 andb app]; words; reflexivity.
Qed.
Lemma modrm_disp : forall m ws sg d, nth_of combos m (map upper ws) -> sg = #"+" \/ sg = #"-" -> value_word d ->
  x_memory_mod (ws ++ [sg; d]) = Some (2, m, (length ws + 2)%nat, Some (sg ++ d)).
Proof.
  intros m ws sg d H SG VW.
  pose proof (reg_word_neq d #"SI" VW eq_refl) as N1. pose proof (reg_word_neq d #"DI" VW eq_refl) as N2.
  pose proof (reg_word_neq d #"ESI" VW eq_refl) as N3. pose proof (reg_word_neq d #"EDI" VW eq_refl) as N4.
  pose proof (reg_word_neq d #"RSI" VW eq_refl) as N5. pose proof (reg_word_neq d #"RDI" VW eq_refl) as N6.
  assert (M1 : existsb (fun x => str_eqb (upper d) (upper x)) [#"SI"; #"ESI"; #"RSI"] = false) by (cbn [existsb]; rewrite N1, N3, N5; reflexivity).
  assert (M2 : existsb (fun x => str_eqb (upper d) (upper x)) [#"DI"; #"EDI"; #"RDI"] = false) by (cbn [existsb]; rewrite N2, N4, N6; reflexivity).
  combo H; destruct SG as [-> | ->];
  unfold x_memory_mod; cbn [find x_plain x_displaced map match_ length Nat.eqb match_all match1 andb app nth Nat.add]; words; rewrite ?N1, ?N2, ?M1, ?M2; reflexivity.
Qed.

Lemma plus_strip : forall d, hd_error d <> Some "+"%char -> x_lstrip d = d.
Proof.
  intros [|c d] H; [reflexivity|]. cbn [x_lstrip]. destruct (Ascii.eqb c "+") eqn:E; [|reflexivity].
  apply Ascii.eqb_eq in E. subst. exfalso. apply H. reflexivity.
Qed.
Lemma memory_inner : forall pre ws' post base m, ~ In #"]" ws' ->
  x_memory (pre ++ (#"[" :: ws' ++ [#"]"]) ++ post) base (length pre) m =
  match x_memory_mod ws' with
  | Some (md, rm, delta, d) =>
      let m := Xrm (Some md) (xm_reg m) (Some rm) d (xm_bits m) in
      let! b := x_build_if_reg base m in ret (Some ((2 + delta)%nat, base, b, m))
  | None => ret None
  end.
Proof.
  intros pre ws' post base m N. unfold x_memory, x_index_from. cbn [app]. rewrite I86Facts.skipn_len1. rewrite <- app_assoc. cbn [app].
  rewrite I86Facts.index_of_app by exact N. cbn [option_map].
  rewrite I86Facts.firstn_len by (unfold str; lia). reflexivity.
Qed.
Definition mod_of (d : option str) : Z := match d with None => 0 | Some _ => 2 end.
(** The operand functions read a place in memory as what it says, its sign being stripped later. *)
Lemma memory_read : forall r d ws, written1 (Mem r d) ws -> 0 <= r < 8 /\ exists raw n, option_map x_lstrip raw = d /\ n = length ws /\
  forall pre post base m, x_memory (pre ++ ws ++ post) base (length pre) m =
    let m := Xrm (Some (mod_of d)) (xm_reg m) (Some r) raw (xm_bits m) in
    let! b := x_build_if_reg base m in ret (Some (n, base, b, m)).
Proof.
  intros r d ws W. inversion W as [| | | |m ws' H E1 E2|m ws' x H V P E1 E2|m ws' x H V E1 E2|]; subst;
    (split; [apply (I86Facts.nth_of_lt _ _ _ _ H)|]).
  - exists None, (2 + length ws')%nat. split; [reflexivity|]. split; [cbn [length]; rewrite app_length; cbn [length]; lia|]. intros pre post base m. rewrite memory_inner by exact (I86Facts.combo_no_close _ _ H).
    rewrite (modrm_plain _ _ H).
    reflexivity.
  - exists (Some (#"+" ++ x)), (2 + (length ws' + 2))%nat. split; [cbn [option_map]; f_equal; exact (plus_strip x P)|].
    split; [cbn [length]; rewrite app_length; cbn [length]; lia|]. intros pre post base m.
    replace (#"[" :: ws' ++ [#"+"; x; #"]"]) with (#"[" :: (ws' ++ [#"+"; x]) ++ [#"]"]) by (rewrite <- app_assoc; reflexivity).
    rewrite memory_inner.
    + rewrite (modrm_disp r ws' #"+" x H (or_introl eq_refl) V).
      reflexivity.
    + rewrite in_app_iff. intros [I|[I|[I|[]]]]; [exact (I86Facts.combo_no_close _ _ H I)|discriminate|]. destruct V as (_ & _ & N). congruence.
  - exists (Some (#"-" ++ x)), (2 + (length ws' + 2))%nat. split; [reflexivity|]. split; [cbn [length]; rewrite app_length; cbn [length]; lia|]. intros pre post base m.
    replace (#"[" :: ws' ++ [#"-"; x; #"]"]) with (#"[" :: (ws' ++ [#"-"; x]) ++ [#"]"]) by (rewrite <- app_assoc; reflexivity).
    rewrite memory_inner.
    + rewrite (modrm_disp r ws' #"-" x H (or_intror eq_refl) V).
      reflexivity.
    + rewrite in_app_iff. intros [I|[I|[I|[]]]]; [exact (I86Facts.combo_no_close _ _ H I)|discriminate|]. destruct V as (_ & _ & N). congruence.
Qed.

(** ** Operands that do not match *)
Definition fails (a : arg) (o : opd) : bool :=
  match a, o with
  | APass, _ => true
  | AEvqp, Val _ | AEvqp, Ctl _ => true
  | AGvqp, Reg _ _ | AZvqp, Reg _ _ => false
  | AGvqp, _ | AZvqp, _ => true
  | AIvds, Val _ | AIvqp, Val _ | AJvds, Val _ => false
  | AIvds, _ | AIvqp, _ | AJvds, _ => true
  | ArAX, Reg _ n => negb (n =? 0)
  | ArAX, _ => true
  | AZvq, Reg size _ => size =? 32
  | AZvq, _ => true
  | AM, Mem _ _ => false
  | AM, _ => true
  | ARd, Reg size _ => negb (size =? 32)
  | ARd, _ => true
  | ACd, Ctl _ => false
  | ACd, _ => true
  | _, _ => false
  end.
Lemma not_register : forall u, x_register u = None ->
  index_of u x_regs16 = None /\ index_of u x_regs32 = None /\ index_of u x_regs64 = None /\
  str_eqb u #"AX" = false /\ str_eqb u #"EAX" = false /\ str_eqb u #"RAX" = false.
Proof.
  intros u H. unfold x_register in H.
  destruct (index_of u x_regs16) eqn:E1; [discriminate|]. destruct (index_of u x_regs32) eqn:E2; [discriminate|].
  destruct (index_of u x_regs64) eqn:E3; [discriminate|].
  repeat split; apply I86Facts.str_neq; intros ->; discriminate.
Qed.
(** The first word of an operand that is not a general register. *)
Definition other_word (t : str) : Prop := x_register (upper t) = None.
Lemma other : forall o t, first_word o t -> match o with Reg _ _ => True | _ => other_word t end.
Proof. intros o t H; destruct o; cbn [first_word] in H; unfold other_word; try exact I; [apply H|subst; reflexivity|apply H]. Qed.
Lemma fails_none : forall a o ws pre post base m s, fails a o = true -> written1 o ws ->
  x_run_arg a (pre ++ ws ++ post) base (length pre) m s = (s, Ok None).
Proof.
  intros a o ws pre post base m s F W. destruct (word_first _ _ W) as (t & r & -> & FW & _). cbn [app]. pose proof (other _ _ FW) as OT.
  assert (NR : match o with Reg _ _ => True | _ =>
    x_register (upper t) = None /\ index_of (upper t) x_regs16 = None /\ index_of (upper t) x_regs32 = None /\ index_of (upper t) x_regs64 = None /\
    str_eqb (upper t) #"AX" = false /\ str_eqb (upper t) #"EAX" = false /\ str_eqb (upper t) #"RAX" = false end).
  { destruct o; try exact I; (split; [exact OT|apply not_register; exact OT]). }
  assert (NB : match o with Mem _ _ => True | _ => str_eqb t #"[" = false /\ str_eqb (upper t) #"[" = false end).
  { destruct o; try exact I; cbn [first_word] in FW; split; apply I86Facts.str_neq; apply FW. }
  assert (NV : match o with Val _ => True | _ => x_value t = false end).
  { destruct o; try exact I; cbn [first_word] in FW; [apply FW|apply FW|subst; reflexivity]. }
  assert (NC : match o with Ctl _ => True | _ => index_of (upper t) x_cregs = None end).
  { destruct o; try exact I; cbn [first_word] in FW; [apply FW|subst; reflexivity|apply FW]. }
  destruct a; try discriminate F; cbn [x_run_arg]; rewrite ?I86Facts.tok_some; try reflexivity; destruct o; try discriminate F;
    repeat match goal with H : _ /\ _ |- _ => destruct H end; try (unfold bind at 1; unfold get at 1);
    repeat match goal with E : x_register (upper ?t) = None |- _ => rewrite E; clear E | E : x_value ?t = _ |- _ => rewrite E; clear E
      | E : index_of (upper ?t) _ = None |- _ => rewrite E; clear E | E : str_eqb _ _ = false |- _ => rewrite E; clear E end; try reflexivity.
  - cbn [first_word] in FW. destruct FW as (_ & _ & _ & _ & _ & _ & _ & _ & _ & _ & NZ & _). cbn [fails] in F. apply negb_true_iff, Z.eqb_neq in F.
    destruct (NZ F) as (N1 & N2 & N3). rewrite !I86Facts.str_neq by assumption. reflexivity.
  - cbn [first_word] in FW. destruct FW as (_ & _ & _ & _ & _ & _ & _ & R1 & _ & R3 & _). cbn [fails] in F. apply Z.eqb_eq in F. subst size.
    rewrite R3, R1. reflexivity.
  - cbn [first_word] in FW. destruct FW as (_ & _ & _ & _ & _ & _ & _ & _ & R2 & _). cbn [fails] in F. apply negb_true_iff in F. rewrite R2, F. reflexivity.
Qed.

(** ** Numbers *)
Lemma little_unique : forall n v b1 b2, little n v b1 -> little n v b2 -> b1 = b2.
Proof.
  assert (G : forall l1 l2, length l1 = length l2 -> Forall is_byte l1 -> Forall is_byte l2 -> le_value l1 = le_value l2 -> l1 = l2).
  { induction l1 as [|x l1 IH]; intros [|y l2] LE F1 F2 V; try discriminate; auto. cbn [length le_value] in *. inversion F1; inversion F2; subst.
    unfold is_byte in *. assert (x = y) by lia. subst y. f_equal. apply IH; auto; lia. }
  intros n v b1 b2 (F1 & L1 & V1) (F2 & L2 & V2). apply G; auto; [|congruence]. apply Nat2Z.inj. unfold zlen in *. lia.
Qed.
Lemma little_bytes : forall k v w, w mod 2 ^ (8 * Z.of_nat k) = v mod 2 ^ (8 * Z.of_nat k) -> little (Z.of_nat k) v (le_bytes k w).
Proof.
  intros k v w H. split; [apply le_bytes_bytes|]. split; [unfold zlen; rewrite le_bytes_length; reflexivity|].
  rewrite le_value_le_bytes. replace (256 ^ Z.of_nat k) with (2 ^ (8 * Z.of_nat k)) by (rewrite Z.pow_mul_r by lia; reflexivity). exact H.
Qed.
Lemma pack_little : forall f k v, sf_signed f = false -> sf_size f = k ->
  exists b, pack_u false f (2 ^ (8 * Z.of_nat k) - 1) [Some v] = Ok b /\ little (Z.of_nat k) v b.
Proof.
  intros f k v SG SZ. unfold pack_u. cbn [map struct_pack masked]. unfold struct_pack1. rewrite SG, SZ.
  rewrite land_ones_mod by lia. pose proof (Z.mod_pos_bound v (2 ^ (8 * Z.of_nat k)) ltac:(apply Z.pow_pos_nonneg; lia)) as B.
  replace ((0 <=? v mod 2 ^ (8 * Z.of_nat k)) && (v mod 2 ^ (8 * Z.of_nat k) <? 2 ^ (8 * Z.of_nat k))) with true by (symmetry; apply andb_true_intro; split; lia).
  cbn [rbind int_bytes]. rewrite app_nil_r. eexists. split; [reflexivity|]. apply little_bytes. rewrite Z.mod_mod; [reflexivity|]. apply Z.pow_nonzero; lia.
Qed.
Lemma pack16 : forall v b, little 2 v b -> pack_le16u [Some v] = Ok b.
Proof.
  intros v b L. destruct (pack_little FH 2 v eq_refl eq_refl) as (b' & P & L'). rewrite (little_unique _ _ _ _ L L'). exact P.
Qed.
Lemma pack32 : forall v b, little 4 v b -> pack_le32u [Some v] = Ok b.
Proof.
  intros v b L. destruct (pack_little FI 4 v eq_refl eq_refl) as (b' & P & L'). rewrite (little_unique _ _ _ _ L L'). exact P.
Qed.
Lemma packs16 : forall v b, little 2 v b -> pack_le16s [Some v] = Ok b.
Proof.
  intros v b L. rewrite I86Read.pack_sw. f_equal. rewrite <- I86Read.le_word. eapply little_unique; [|exact L]. apply (little_bytes 2). reflexivity.
Qed.
Lemma little_zero : forall n, 0 <= n -> little n 0 (repeat 0 (Z.to_nat n)).
Proof.
  intros n N. split; [apply Forall_forall; intros x I; apply repeat_spec in I; subst; unfold is_byte; lia|].
  split; [unfold zlen; rewrite repeat_length; lia|]. rewrite Z.mod_0_l by (apply Z.pow_nonzero; lia). induction (Z.to_nat n); [reflexivity|]. cbn [repeat le_value]. rewrite IHn0. reflexivity.
Qed.

(** ** The byte with mod, reg and r/m *)
Lemma modrm_byte : forall a b c, 0 <= a < 4 -> 0 <= b < 8 -> 0 <= c < 8 ->
  exists v, pack_bits 0 [((7, 6), a); ((5, 3), b); ((2, 0), c)] = Ok v /\ pack_byte [Some v] = Ok [modrm a b c].
Proof.
  intros a b c HA HB HC. exists (a * 64 + b * 8 + c). split; [apply I86Facts.modrm_byte; assumption|]. unfold modrm. apply MosFacts.pack_byte1. lia.
Qed.
Definition raw_of (o : opd) (raw : option str) : Prop :=
  match o with Mem _ d => option_map x_lstrip raw = d | _ => raw = None end.
Lemma modrm_place : forall s size o md rm d raw r base, In size [16; 32] -> place x86_p s size o md rm d -> raw_of o raw -> 0 <= r < 8 -> 0 <= rm < 8 ->
  x_modrm base (Xrm (Some md) (Some r) (Some rm) raw (Some size)) s = (s, Ok ([modrm md r rm] ++ d)).
Proof.
  intros s size o md rm d raw r base SZ P R HR HM.
  assert (MD : 0 <= md < 4) by (destruct P; lia).
  destruct (modrm_byte md r rm MD HR HM) as (v & PB & BY).
  unfold x_modrm. cbn [xm_mod xm_reg xm_rm xm_disp xm_bits xkey]. unfold bind, ret, lift. rewrite PB, BY.
  destruct P as [n|m M6 M|m x v' b M6 SZ' NM L].
  - cbn [raw_of] in R. subst raw. reflexivity.
  - cbn [raw_of] in R. destruct raw; [discriminate R|]. reflexivity.
  - subst size. cbn [raw_of] in R. destruct raw as [raw|]; [|discriminate R]. injection R as R. cbn [Z.eqb Pos.eqb]. rewrite poil_eq.
    cbn [xlab ld_label ld_bits_size ld_relative Z.eqb negb orb]. rewrite R. unfold num in NM. rewrite NM. rewrite (packs16 _ _ L). reflexivity.
Qed.

(** ** Rows that do not match *)
Definition m0 : xrm := Xrm None None None None None.
Definition skips (args : list arg) (os : list opd) : bool :=
  match args, os with
  | a :: _, o :: _ =>
      fails a o || match args, os with _ :: a2 :: _, _ :: o2 :: _ => FitX86.quiet_first a && fails a2 o2 | _, _ => false end
  | _, _ => false
  end.
Lemma first_step : forall a o t0 ws post base s, FitX86.quiet_first a = true -> written1 o ws ->
  x_run_arg a (t0 :: ws ++ post) base 1 m0 s = (s, Ok None) \/
  exists base' m', x_run_arg a (t0 :: ws ++ post) base 1 m0 s = (s, Ok (Some (length ws, base', [], m'))).
Proof.
  intros a o t0 ws post base s Q W. destruct (fails a o) eqn:F.
  { left. exact (fails_none a o ws [t0] post base m0 s F W). }
  assert (MM : forall r d, o = Mem r d -> exists base' m', x_memory (t0 :: ws ++ post) base 1 m0 s = (s, Ok (Some (length ws, base', [], m')))).
  { intros r d ->. destruct (memory_read _ _ _ W) as (_ & raw & n & _ & -> & H). pose proof (H [t0] post base m0) as X. cbn [app length] in X. rewrite X. cbv zeta. eexists. eexists. reflexivity. }
  destruct (word_first _ _ W) as (t & r & -> & FW & EM). cbn [app] in *.
  assert (TK : forall B (k : str -> M B), bind (tok_at (t0 :: t :: r ++ post) 1) k = k t) by reflexivity.
  right. destruct a; try discriminate Q; cbn [x_run_arg]; rewrite TK; destruct o; try discriminate F; cbn [first_word] in FW; try subst r; cbn [length].
  - destruct FW as (_ & _ & -> & _). unfold bind at 1, get at 1. destruct (x_sized _ _ _ _) as [b' m'] eqn:E. exists b', m'.
    unfold x_build_if_reg. unfold x_sized in E. cbn [m0 xset_rm xm_bits] in E. injection E as <- <-. reflexivity.
  - subst t. destruct (MM _ _ eq_refl) as (b' & m' & H). exists b', m'. exact H.
  - destruct FW as (_ & _ & -> & _). unfold bind at 1, get at 1. destruct (x_sized _ _ _ _) as [b' m'] eqn:E. exists b', m'. reflexivity.
  - destruct FW as (_ & _ & -> & _). unfold bind at 1, get at 1. eexists. eexists. reflexivity.
  - destruct FW as (_ & _ & _ & _ & _ & _ & _ & _ & _ & _ & _ & Z0). cbn [fails] in F. apply negb_false_iff, Z.eqb_eq in F. rewrite (Z0 F).
    unfold bind at 1, get at 1. destruct (size =? 16); [|destruct (size =? 32)]; eexists; eexists; reflexivity.
  - destruct FW as (S & _ & _ & _ & _ & _ & _ & R1 & _ & R3 & _). cbn [fails] in F. rewrite R1, R3. unfold bind at 1, get at 1.
    destruct S as [-> |[-> | ->]]; [| discriminate F|]; eexists; eexists; reflexivity.
  - subst t. destruct (MM _ _ eq_refl) as (b' & m' & H). exists b', m'. exact H.
  - destruct FW as (_ & _ & _ & _ & _ & _ & _ & _ & R2 & _). cbn [fails] in F. apply negb_false_iff in F. rewrite R2, F. eexists. eexists. reflexivity.
  - destruct FW as (_ & _ & _ & _ & _ & R). rewrite R. eexists. eexists. reflexivity.
Qed.
Lemma skips_none : forall args os t0 ops base s, skips args os = true -> written os ops ->
  x_run_args args (t0 :: ops) base 1 m0 [] s = (s, Ok None).
Proof.
  intros args os t0 ops base s K W. destruct args as [|a args]; [discriminate K|]. destruct os as [|o os]; [discriminate K|].
  inversion W as [|? ? ws ops' W1 W2]; subst. cbn [skips] in K. cbn [x_run_args]. unfold bind at 1.
  destruct (fails a o) eqn:F.
  { rewrite (fails_none a o ws [t0] ops' base m0 s F W1 : x_run_arg a (t0 :: ws ++ ops') base 1 m0 s = _). reflexivity. }
  cbn [orb] in K. destruct args as [|a2 args]; [discriminate K|]. destruct os as [|o2 os]; [discriminate K|]. apply andb_prop in K. destruct K as [Q F2].
  destruct (first_step a o t0 ws ops' base s Q W1) as [-> |(b' & m' & ->)]; [reflexivity|].
  inversion W2 as [|? ? ws2 ops2 W3 W4]; subst. cbn [x_run_args]. unfold bind at 1.
  pose proof (fails_none a2 o2 ws2 (t0 :: ws) ops2 b' m' s F2 W3) as H. cbn [app length] in H. replace (1 + length ws)%nat with (S (length ws)) by lia. rewrite H. reflexivity.
Qed.
Definition skipped (os : list opd) (c : Z * list arg) : bool := skips (snd c) os.
Lemma written_two : forall os ops t0, written os ops -> os <> [] -> Nat.ltb (length (t0 :: ops)) 2 = false.
Proof.
  intros os ops t0 W N. destruct W as [|o os ws ops W1 W]; [contradiction|]. destruct (word_first _ _ W1) as (t & r & -> & _). apply Nat.ltb_ge. cbn [app length]. lia.
Qed.
Lemma skips_rows : forall rep os t0 ops cs rest s, written os ops -> os <> [] -> forallb (skipped os) cs = true ->
  x_conditions rep (t0 :: ops) (cs ++ rest) s = x_conditions rep (t0 :: ops) rest s.
Proof.
  intros rep os t0 ops cs rest s W N. induction cs as [|[k args] cs IH]; intros K; [reflexivity|]. cbn [forallb skipped snd] in K. apply andb_prop in K. destruct K as [K1 K2].
  destruct args as [|a args]; [discriminate K1|]. cbn [app x_conditions]. rewrite (written_two _ _ _ W N). unfold bind at 1.
  fold m0. rewrite (skips_none (a :: args) os t0 ops (x_base k) s K1 W). apply IH. exact K2.
Qed.

(** ** Rows that match *)
Definition args_of (f : form) : list arg :=
  match f with
  | RmReg => [AEvqp; AGvqp] | RegRm => [AGvqp; AEvqp] | AccImm => [ArAX; AIvds] | OpImm => [AZvqp; AIvqp] | OpReg => [AZvqp]
  | Stack => [AZvq] | CtlReg => [ACd; ARd] | RegCtl => [ARd; ACd] | RegAddr => [AGvqp; AM] | Rel => [AJvds] | Alone _ _ => []
  end.
Lemma prefix_eq : forall size bits base, In size [16; 32] -> x_prefix size bits base = size_prefix bits size ++ base.
Proof.
  intros size bits base [<- |[<- |[]]]; unfold x_prefix, size_prefix; cbn [Z.eqb Pos.eqb]; destruct (bits =? 16); reflexivity.
Qed.
Lemma tok_first : forall t0 (t : str) post B (k : str -> M B), bind (tok_at (t0 :: t :: post) 1) k = k t. Proof. reflexivity. Qed.
Lemma tok_second : forall t0 ws (t : str) post B (k : str -> M B), bind (tok_at (t0 :: ws ++ t :: post) (1 + length ws)) k = k t.
Proof. intros t0 ws t post B k. exact (I86Facts.tok_some (t0 :: ws) t post B k). Qed.
Lemma get_step : forall B (k : st -> M B) s, bind get k s = k s s. Proof. reflexivity. Qed.
Lemma one_word : forall o ws, written1 o ws -> match o with Mem _ _ => False | _ => True end -> exists t, ws = [t] /\ first_word o t.
Proof. intros o ws W N. destruct (word_first _ _ W) as (t & r & -> & FW & E). exists t. destruct o; try contradiction; subst r; auto. Qed.
Ltac inv_written W := match type of W with
  | written [] _ => inversion W; subst; clear W
  | written (_ :: _) _ => let W1 := fresh "W1" in let W2 := fresh "W2" in inversion W as [|? ? ? ? W1 W2]; subst; clear W; try inv_written W2 end.
(** The byte is complete when the second of register and place is read. *)
Lemma evqp_first : forall o ws t0 post base size md rm d s, written1 o ws -> place x86_p s size o md rm d -> In size [16; 32] ->
  0 <= rm < 8 /\ exists raw bits, raw_of o raw /\ (bits = None \/ bits = Some size) /\
    x_run_arg AEvqp (t0 :: ws ++ post) base 1 m0 s =
      (s, Ok (Some (length ws, (if bits then size_prefix (x86_bits s) size ++ base else base), [], Xrm (Some md) None (Some rm) raw bits))).
Proof.
  intros o ws t0 post base size md rm d s W P SZ. destruct o as [sz n|n|r dd|v]; try (inversion P; fail).
  - destruct (one_word _ _ W I) as (t & -> & FW). cbn [first_word] in FW. destruct FW as (_ & N & R & _).
    assert (Q : sz = size /\ md = 3 /\ rm = n) by (inversion P; auto). destruct Q as (-> & -> & ->). split; [exact N|].
    exists None, (Some size). split; [reflexivity|]. split; [right; reflexivity|]. cbn [x_run_arg app length]. rewrite tok_first, R, get_step.
    unfold x_sized. cbn [xset_rm m0 xm_bits]. rewrite prefix_eq by exact SZ. reflexivity.
  - destruct (memory_read _ _ _ W) as (B & raw & n & ST & -> & H). split; [inversion P; subst; exact B|]. exists raw, None. split; [exact ST|]. split; [left; reflexivity|].
    destruct (word_first _ _ W) as (t & q & E & FW & _). cbn [first_word] in FW. subst t. assert (T : nth_error (t0 :: ws ++ post) 1 = Some #"[") by (rewrite E; reflexivity).
    cbn [x_run_arg]. unfold tok_at. rewrite T. unfold bind at 1, ret at 1.
    change (x_register (upper #"[")) with (@None (Z * Z)). change (str_eqb (upper #"[") #"[") with true. cbv iota.
    pose proof (H [t0] post base m0) as X. cbn [app length] in X. rewrite X. cbv zeta.
    replace md with (mod_of dd) by (inversion P; reflexivity). replace rm with r by (inversion P; reflexivity). reflexivity.
Qed.
Lemma place_second : forall a o ws t0 ws1 base size md rm d r s, (a = AEvqp \/ a = AM /\ exists x y, o = Mem x y) ->
  written1 o ws -> place x86_p s size o md rm d -> In size [16; 32] -> 0 <= r < 8 ->
  exists m', x_run_arg a (t0 :: ws1 ++ ws) base (1 + length ws1) (Xrm None (Some r) None None (Some size)) s =
    (s, Ok (Some (length ws, base, [modrm md r rm] ++ d, m'))).
Proof.
  intros a o ws t0 ws1 base size md rm d r s A W P SZ R. destruct o as [sz n|n|q dd|v]; try (inversion P; fail).
  - destruct A as [-> |[_ (x & y & E)]]; [|discriminate E].
    destruct (one_word _ _ W I) as (t & -> & FW). cbn [first_word] in FW. destruct FW as (_ & N & X & _).
    assert (Q : sz = size /\ md = 3 /\ rm = n /\ d = []) by (inversion P; auto). destruct Q as (-> & -> & -> & ->). eexists.
    cbn [x_run_arg length]. rewrite tok_second, X, get_step.
    change (x_sized _ _ _ _) with (base, Xrm (Some 3) (Some r) (Some n) None (Some size)). unfold x_build_if_reg. cbn [xm_reg]. unfold bind at 1.
    rewrite (modrm_place s size (Reg size n) 3 n [] None r base SZ P eq_refl R N). reflexivity.
  - destruct (memory_read _ _ _ W) as (B & raw & n & ST & -> & H).
    assert (X : exists m', x_memory (t0 :: ws1 ++ ws) base (1 + length ws1) (Xrm None (Some r) None None (Some size)) s = (s, Ok (Some (length ws, base, [modrm md r rm] ++ d, m')))).
    { pose proof (H (t0 :: ws1) [] base (Xrm None (Some r) None None (Some size))) as X. rewrite app_nil_r in X. cbn [app length] in X. cbn [Nat.add].
      rewrite X. cbv zeta. cbn [xm_reg xm_bits]. unfold x_build_if_reg. cbn [xm_reg]. unfold bind at 1.
      replace (mod_of dd) with md by (inversion P; reflexivity). assert (rm = q) by (inversion P; reflexivity). subst rm.
      rewrite (modrm_place s size (Mem q dd) md q d raw r base SZ P ST R B). eexists. reflexivity. }
    destruct (word_first _ _ W) as (t & z & E & FW & _). cbn [first_word] in FW. subst t.
    destruct X as (m' & X). exists m'. rewrite <- X.
    assert (T : nth_error (t0 :: ws1 ++ ws) (1 + length ws1) = Some #"[") by (rewrite E; exact (I86Facts.tok_nth (t0 :: ws1) #"[" z)).
    destruct A as [-> |[-> _]]; cbn [x_run_arg]; unfold tok_at; rewrite T; reflexivity.
Qed.
Lemma gvqp_first : forall size r ws t0 post base s, written1 (Reg size r) ws -> In size [16; 32] ->
  0 <= r < 8 /\ x_run_arg AGvqp (t0 :: ws ++ post) base 1 m0 s =
    (s, Ok (Some (length ws, size_prefix (x86_bits s) size ++ base, [], Xrm None (Some r) None None (Some size)))).
Proof.
  intros size r ws t0 post base s W SZ. destruct (one_word _ _ W I) as (t & -> & FW). cbn [first_word] in FW. destruct FW as (_ & N & R & _). split; [exact N|].
  cbn [x_run_arg app length]. rewrite tok_first, R, get_step. unfold x_sized. cbn [xset_reg m0 xm_bits]. rewrite prefix_eq by exact SZ. reflexivity.
Qed.
Lemma imm_read : forall a t n off bits b ds m base s, (a = AIvds \/ a = AIvqp) -> n = bits / 8 -> In bits [16; 32] -> xm_bits m = Some bits -> off = zlen base ->
  immediate x86_p s n off t b ds -> x_value t = true -> forall tokens i, nth_error tokens i = Some t ->
  x_run_arg a tokens base i m s = (referring s ds, Ok (Some (1%nat, base, b, m))).
Proof.
  intros a t n off bits b ds m base s A EN SZ BI -> IM V tokens i T.
  assert (X : exists pk, (forall v b, little n v b -> pk [Some v] = Ok b) /\ x_run_arg a tokens base i m = x_imm t n base pk m /\ 0 < n).
  { destruct A as [-> | ->]; cbn [x_run_arg]; unfold tok_at; rewrite T; unfold bind at 1, ret at 1; rewrite V, BI;
    (destruct SZ as [<- |[<- |[]]]; [exists pack_le16u; subst n; split; [exact pack16|]|exists pack_le32u; subst n; split; [exact pack32|]]); (split; [reflexivity|reflexivity]). }
  destruct X as (pk & PK & -> & N0). unfold x_imm, bind. rewrite poil_eq. cbn [xlab ld_label ld_bits_size ld_relative Z.eqb negb orb].
  destruct IM as [v b NM L|NN].
  - unfold num in NM. rewrite NM. unfold lift. rewrite (PK _ _ L). reflexivity.
  - unfold not_num in NN. rewrite NN. unfold lift. rewrite (PK 0 _ (little_zero n ltac:(lia))). reflexivity.
Qed.
Lemma or_last : forall pre b v, b mod 8 = 0 -> 0 <= v < 8 -> x_or_last (pre ++ [b]) v = pre ++ [b + v].
Proof.
  intros pre b v B V. induction pre as [|x pre IH].
  - cbn [app x_or_last]. f_equal. rewrite <- Z.lxor_lor, Z.add_nocarry_lxor; [reflexivity|..];
    (apply Z.bits_inj'; intros n N; rewrite Z.land_spec, Z.bits_0; destruct (Z.ltb_spec n 3) as [L|L];
      [replace (Z.testbit b n) with false; [reflexivity|]; symmetry; rewrite <- (Z.mod_pow2_bits_low b 3 n L); change (2 ^ 3) with 8; rewrite B; apply Z.bits_0
      |replace (Z.testbit v n) with false; [apply andb_false_r|]; symmetry; rewrite <- (Z.mod_small v (2 ^ 3)) by (cbn; lia); apply Z.mod_pow2_bits_high; lia]).
  - cbn [app x_or_last]. destruct (pre ++ [b]) eqn:E; [destruct pre; discriminate E|]. rewrite IH. reflexivity.
Qed.
Definition byte_b (x : Z) : bool := (0 <=? x) && (x <? 256).
Definition op_good (op : bytes) (f : form) : bool :=
  forallb byte_b op && match f with OpImm | OpReg | Stack => (last op 0 mod 8 =? 0) && byte_b (last op 0 + 7) | _ => true end.
Lemma byte_bytes : forall l, forallb byte_b l = true -> Forall is_byte l.
Proof. intros l H. rewrite forallb_forall in H. apply Forall_forall. intros x I. apply H in I. unfold byte_b in I. unfold is_byte. lia. Qed.
Lemma prefix_bytes : forall mode size, Forall is_byte (size_prefix mode size).
Proof. intros. unfold size_prefix. destruct (mode =? 16), (size =? 32), (size =? 16); repeat constructor; unfold is_byte; lia. Qed.
Notation enc s := (encodes x86_p s (immediate x86_p s) (distance x86_p s)).
Lemma row_runs : forall s op f os ops b ds t0, written os ops -> enc s op f os b ds -> In (x86_bits s) [16; 32; 64] -> 0 <= pc s ->
  op_good op f = true -> args_of f <> [] ->
  exists base blob, x_run_args (args_of f) (t0 :: ops) op 1 m0 [] s = (referring s ds, Ok (Some (base, blob))) /\ base ++ blob = b /\ Forall is_byte base.
Proof.
  intros s op f os ops b ds t0 W E MO PC G NE. unfold op_good in G. apply andb_prop in G. destruct G as [G1 G2]. apply byte_bytes in G1.
  destruct E as [op size o r md rm d SZ P|op size o r md rm d SZ P|op size m a r md rm d SZ P|op size t b ds SZ IM|op size r t b ds SZ IM|x op r|op size r SZ|op n r M N|op n r M N|op t b ds D|op modes size M].
  - inv_written W. rewrite app_nil_r. destruct (one_word _ _ W0 I) as (t & -> & FW). cbn [first_word] in FW. destruct FW as (_ & HR & X & _).
    destruct (evqp_first o ws t0 [t] op size md rm d s W1 P SZ) as (HM & raw & bits & RW & BI & ST). cbn [args_of x_run_args]. unfold bind at 1. rewrite ST.
    unfold bind at 1. cbn [x_run_arg]. rewrite tok_second, X, get_step.
    exists (size_prefix (x86_bits s) size ++ op), ([modrm md r rm] ++ d).
    set (q := x_sized _ _ _ _). assert (SX : q = (size_prefix (x86_bits s) size ++ op, Xrm (Some md) (Some r) (Some rm) raw (Some size))).
    { unfold q, x_sized. destruct BI as [-> | ->]; cbn [xset_reg xm_bits]; [rewrite prefix_eq by exact SZ|]; reflexivity. }
    clearbody q. subst q. assert (L : Nat.ltb 1 (1 + length ws) = true).
    { destruct (word_first _ _ W1) as (? & ? & -> & _). reflexivity. }
    rewrite L. unfold bind at 1. rewrite (modrm_place s size o md rm d raw r _ SZ P RW HR HM). split; [reflexivity|].
    split; [rewrite <- !app_assoc; reflexivity|]. apply Forall_app. split; [apply prefix_bytes|exact G1].
  - inv_written W. rewrite app_nil_r. destruct (gvqp_first size r ws t0 ws0 op s W1 SZ) as (HR & ST). cbn [args_of x_run_args]. unfold bind at 1. rewrite ST. unfold bind at 1.
    destruct (place_second AEvqp o ws0 t0 ws (size_prefix (x86_bits s) size ++ op) size md rm d r s (or_introl eq_refl) W0 P SZ HR) as (m' & ST2). rewrite ST2.
    exists (size_prefix (x86_bits s) size ++ op), ([modrm md r rm] ++ d). split; [reflexivity|]. split; [rewrite <- !app_assoc; reflexivity|]. apply Forall_app. split; [apply prefix_bytes|exact G1].
  - inv_written W. rewrite app_nil_r. destruct (gvqp_first size r ws t0 ws0 op s W1 SZ) as (HR & ST). cbn [args_of x_run_args]. unfold bind at 1. rewrite ST. unfold bind at 1.
    destruct (place_second AM (Mem m a) ws0 t0 ws (size_prefix (x86_bits s) size ++ op) size md rm d r s) as (m' & ST2); auto; [right; split; [reflexivity|eauto]|]. rewrite ST2.
    exists (size_prefix (x86_bits s) size ++ op), ([modrm md r rm] ++ d). split; [reflexivity|]. split; [rewrite <- !app_assoc; reflexivity|]. apply Forall_app. split; [apply prefix_bytes|exact G1].
  - inv_written W. rewrite app_nil_r. destruct (one_word _ _ W1 I) as (t1 & -> & FW). cbn [first_word] in FW. destruct FW as (_ & _ & _ & _ & _ & _ & _ & _ & _ & _ & _ & AX).
    destruct (one_word _ _ W0 I) as (t2 & -> & FV). cbn [first_word] in FV. destruct FV as (-> & _ & V & _). specialize (AX eq_refl).
    assert (ST : x_run_arg ArAX (t0 :: [t1] ++ [t]) op 1 m0 s = (s, Ok (Some (1%nat, size_prefix (x86_bits s) size ++ op, [], xset_bits m0 size)))).
    { cbn [x_run_arg app]. rewrite tok_first, get_step, AX, <- prefix_eq by exact SZ. destruct SZ as [<- |[<- |[]]]; reflexivity. }
    cbn [args_of x_run_args]. unfold bind at 1. rewrite ST. unfold bind at 1.
    rewrite (imm_read AIvds t (size / 8) _ size b ds (xset_bits m0 size) (size_prefix (x86_bits s) size ++ op) s (or_introl eq_refl) eq_refl SZ eq_refl eq_refl IM V) by reflexivity.
    exists (size_prefix (x86_bits s) size ++ op), b. split; [reflexivity|]. split; [rewrite <- !app_assoc; reflexivity|]. apply Forall_app. split; [apply prefix_bytes|exact G1].
  - inv_written W. rewrite app_nil_r. destruct (one_word _ _ W1 I) as (t1 & -> & FW). cbn [first_word] in FW. destruct FW as (_ & HR & X & _).
    destruct (one_word _ _ W0 I) as (t2 & -> & FV). cbn [first_word] in FV. destruct FV as (-> & _ & V & _).
    apply andb_prop in G2. destruct G2 as [G2 G3]. cbn [last] in G2, G3. apply Z.eqb_eq in G2. unfold byte_b in G3.
    assert (ST : x_run_arg AZvqp (t0 :: [t1] ++ [t]) [op] 1 m0 s = (s, Ok (Some (1%nat, size_prefix (x86_bits s) size ++ [op + r], [], xset_bits m0 size)))).
    { cbn [x_run_arg app]. rewrite tok_first, X, get_step. rewrite (or_last [] op r G2 HR : x_or_last [op] r = [op + r]), prefix_eq by exact SZ. reflexivity. }
    cbn [args_of x_run_args]. unfold bind at 1. rewrite ST. unfold bind at 1.
    assert (OFF : zlen (size_prefix (x86_bits s) size) + 1 = zlen (size_prefix (x86_bits s) size ++ [op + r])) by (rewrite zlen_app; reflexivity).
    rewrite (imm_read AIvqp t (size / 8) _ size b ds (xset_bits m0 size) (size_prefix (x86_bits s) size ++ [op + r]) s (or_intror eq_refl) eq_refl SZ eq_refl OFF IM V) by reflexivity.
    exists (size_prefix (x86_bits s) size ++ [op + r]), b. split; [reflexivity|]. split; [rewrite <- !app_assoc; reflexivity|]. apply Forall_app. split; [apply prefix_bytes|].
    constructor; [|constructor]. inversion G1; subst. unfold is_byte in *. lia.
  - inv_written W. rewrite app_nil_r. destruct (one_word _ _ W1 I) as (t1 & -> & FW). cbn [first_word] in FW. destruct FW as (_ & HR & X & _).
    apply andb_prop in G2. destruct G2 as [G2 G3]. cbn [last] in G2, G3. apply Z.eqb_eq in G2. unfold byte_b in G3.
    cbn [args_of x_run_args x_run_arg]. unfold bind at 1. rewrite tok_first, X, get_step. rewrite (or_last [x] op r G2 HR : x_or_last [x; op] r = [x; op + r]), prefix_eq by (right; left; reflexivity).
    exists (size_prefix (x86_bits s) 32 ++ [x; op + r]), []. split; [reflexivity|]. split; [apply app_nil_r|]. apply Forall_app. split; [apply prefix_bytes|].
    inversion G1 as [|? ? B1 B2]; subst. inversion B2; subst. constructor; [exact B1|]. constructor; [|constructor]. unfold is_byte in *; lia.
  - inv_written W. rewrite app_nil_r. destruct (one_word _ _ W1 I) as (t1 & -> & FW). cbn [first_word] in FW. destruct FW as (_ & HR & _ & _ & _ & _ & _ & R1 & _ & R3 & _).
    apply andb_prop in G2. destruct G2 as [G2 G3]. cbn [last] in G2, G3. apply Z.eqb_eq in G2. unfold byte_b in G3.
    assert (ST : x_run_arg AZvq (t0 :: [t1]) [op] 1 m0 s = (s, Ok (Some (1%nat, size_prefix (x86_bits s) size ++ [op + r], [], xset_bits m0 size)))).
    { cbn [x_run_arg]. rewrite tok_first, get_step, R1, R3. destruct SZ as [-> |[-> M]]; cbn [Z.eqb Pos.eqb].
      - rewrite Z2Nat.id by lia. rewrite prefix_eq by (left; reflexivity). rewrite or_last by assumption. reflexivity.
      - rewrite Z2Nat.id by lia. rewrite M. cbn [Z.eqb Pos.eqb]. rewrite (or_last [] op r G2 HR : x_or_last [op] r = [op + r]). reflexivity. }
    cbn [args_of x_run_args]. unfold bind at 1. rewrite ST. exists (size_prefix (x86_bits s) size ++ [op + r]), []. split; [reflexivity|]. split; [apply app_nil_r|].
    apply Forall_app. split; [apply prefix_bytes|]. inversion G1; subst. constructor; [|constructor]. unfold is_byte in *; lia.
  - inv_written W. rewrite app_nil_r. destruct (one_word _ _ W1 I) as (t1 & -> & FW). cbn [first_word] in FW. destruct FW as (HN & _ & _ & _ & _ & RC).
    destruct (one_word _ _ W0 I) as (t2 & -> & FV). cbn [first_word] in FV. destruct FV as (_ & HR & _ & _ & _ & _ & _ & _ & R2 & _).
    cbn [args_of x_run_args x_run_arg app]. unfold bind at 1. rewrite tok_first, RC. cbn [Nat.ltb Nat.leb]. unfold ret at 1. unfold bind at 1.
    rewrite (tok_second t0 [t1] t2 [] : forall B k, bind (tok_at [t0; t1; t2] (1 + 1)) k = k t2). rewrite R2. cbn [Z.eqb Pos.eqb]. rewrite !Z2Nat.id by lia.
    destruct (modrm_byte 3 n r ltac:(lia) HN HR) as (v & PB & BY).
    unfold x_build_if_reg, x_modrm. cbn [xset_rm xset_reg m0 xm_mod xm_reg xm_rm xm_disp xm_bits xkey]. unfold bind, ret, lift. rewrite PB, BY.
    exists op, [modrm 3 n r]. split; [reflexivity|]. split; [reflexivity|exact G1].
  - inv_written W. rewrite app_nil_r. destruct (one_word _ _ W0 I) as (t1 & -> & FW). cbn [first_word] in FW. destruct FW as (HN & _ & _ & _ & _ & RC).
    destruct (one_word _ _ W1 I) as (t2 & -> & FV). cbn [first_word] in FV. destruct FV as (_ & HR & _ & _ & _ & _ & _ & _ & R2 & _).
    cbn [args_of x_run_args x_run_arg app]. unfold bind at 1. rewrite tok_first, R2. cbn [Z.eqb Pos.eqb]. cbn [x_build_if_reg xset_rm m0 xm_reg]. unfold ret at 1. unfold bind at 1, ret at 1. unfold bind at 1.
    rewrite (tok_second t0 [t2] t1 [] : forall B k, bind (tok_at [t0; t2; t1] (1 + 1)) k = k t1). rewrite RC. cbn [Nat.ltb Nat.leb Nat.add]. rewrite !Z2Nat.id by lia.
    destruct (modrm_byte 3 n r ltac:(lia) HN HR) as (v & PB & BY).
    unfold x_modrm. cbn [xset_rm xset_reg m0 xm_mod xm_reg xm_rm xm_disp xm_bits xkey]. unfold bind, ret, lift. rewrite PB, BY.
    exists op, [modrm 3 n r]. split; [reflexivity|]. split; [reflexivity|exact G1].
  - inv_written W. rewrite app_nil_r. destruct (one_word _ _ W1 I) as (t1 & -> & FV). cbn [first_word] in FV. destruct FV as (-> & _ & V & _).
    exists op, b.
    assert (X : forall n pk, (n = 2 /\ pk = pack_le16u \/ n = 4 /\ pk = pack_le32u) -> distance x86_p s n (zlen op) t b ds ->
      (let! v := parse_integer_or_label x86_p (xlab t 2 16 (zlen op) (pc s + zlen op + n)) false in
       let! b := lift (pk [Some v]) in ret (Some (1%nat, op, b, m0))) s = (referring s ds, Ok (Some (1%nat, op, b, m0)))).
    { clear D. intros n pk NP D. pose proof (zlen_nonneg op) as Z0. unfold bind at 1. rewrite poil_eq. cbn [xlab ld_label ld_bits_size ld_relative].
      replace (pc s + zlen op + n =? 0) with false by (symmetry; apply Z.eqb_neq; lia). cbn [negb orb].
      assert (PK : forall v b, little n v b -> pk [Some v] = Ok b) by (destruct NP as [[-> ->]|[-> ->]]; [exact pack16|exact pack32]).
      destruct D as [v b NM L|NN].
      - unfold num in NM. rewrite NM. unfold bind, lift. rewrite (PK _ _ L). reflexivity.
      - unfold not_num in NN. rewrite NN. unfold bind, lift. rewrite (PK 0 _ (little_zero n ltac:(lia))). reflexivity. }
    assert (ST : x_run_arg AJvds (t0 :: [t]) op 1 m0 s = (referring s ds, Ok (Some (1%nat, op, b, m0)))).
    { cbn [x_run_arg]. rewrite tok_first, V, get_step. destruct MO as [M|[M|[M|[]]]]; rewrite <- M in *; cbn [Z.eqb Pos.eqb orb] in *;
      [exact (X 2 pack_le16u ltac:(auto) D)|exact (X 4 pack_le32u ltac:(auto) D)|exact (X 4 pack_le32u ltac:(auto) D)]. }
    cbn [args_of x_run_args]. unfold bind at 1. rewrite ST. split; [reflexivity|]. split; [reflexivity|exact G1].
  - cbn [args_of] in NE. contradiction.
Qed.

(** ** The table *)
Definition cls (o : opd) : opd :=
  match o with Reg size n => Reg size (if n =? 0 then 0 else 1) | Ctl _ => Ctl 0 | Mem _ _ => Mem 0 None | Val _ => Val [] end.
Lemma fails_cls : forall a o, fails a (cls o) = fails a o.
Proof. intros a o. destruct o as [size n|n|m d|t]; destruct a; try reflexivity. cbn [cls fails]. destruct (n =? 0); reflexivity. Qed.
Lemma skips_cls : forall args os, skips args (map cls os) = skips args os.
Proof. intros [|a args] [|o os]; try reflexivity. cbn [skips map]. rewrite fails_cls. destruct args as [|a2 args], os as [|o2 os]; try reflexivity. cbn [map]. rewrite fails_cls. reflexivity. Qed.
Definition any_reg (size : Z) : list opd := [Reg size 0; Reg size 1].
Definition pairs (l1 l2 : list opd) : list (list opd) := flat_map (fun a => map (fun b => [a; b]) l2) l1.
Definition shapes (f : form) : list (list opd) :=
  match f with
  | RmReg => pairs (any_reg 16 ++ [Mem 0 None]) (any_reg 16) ++ pairs (any_reg 32 ++ [Mem 0 None]) (any_reg 32)
  | RegRm => pairs (any_reg 16) (any_reg 16 ++ [Mem 0 None]) ++ pairs (any_reg 32) (any_reg 32 ++ [Mem 0 None])
  | RegAddr => pairs (any_reg 16) [Mem 0 None] ++ pairs (any_reg 32) [Mem 0 None]
  | AccImm => [[Reg 16 0; Val []]; [Reg 32 0; Val []]]
  | OpImm => pairs (any_reg 16) [Val []] ++ pairs (any_reg 32) [Val []]
  | OpReg => map (fun x => [x]) (any_reg 32)
  | Stack => map (fun x => [x]) (any_reg 16 ++ any_reg 64)
  | CtlReg => pairs [Ctl 0] (any_reg 32)
  | RegCtl => pairs (any_reg 32) [Ctl 0]
  | Rel => [[Val []]]
  | Alone _ _ => []
  end.
Lemma shaped : forall s op f os b ds, enc s op f os b ds -> args_of f <> [] -> In (map cls os) (shapes f).
Proof.
  intros s op f os b ds E NE.
  assert (RG : forall size n, cls (Reg size n) = Reg size 0 \/ cls (Reg size n) = Reg size 1) by (intros; cbn [cls]; destruct (n =? 0); auto).
  assert (PL : forall size o md rm d, place x86_p s size o md rm d -> cls o = Reg size 0 \/ cls o = Reg size 1 \/ cls o = Mem 0 None).
  { intros size o md rm d P. destruct P as [n|m|m x v y]; [destruct (RG size n); auto|auto|auto]. }
  destruct E as [op size o r md rm d SZ P|op size o r md rm d SZ P|op size m a r md rm d SZ P|op size t b ds SZ IM|op size r t b ds SZ IM|x op r|op size r SZ|op n r M N|op n r M N|op t b ds D|op modes size M];
    cbn [map]; try (cbn [args_of] in NE; contradiction).
  - destruct SZ as [<- |[<- |[]]]; destruct (PL _ _ _ _ _ P) as [-> |[-> | ->]]; match goal with |- In [_; cls (Reg ?z ?n)] _ => destruct (RG z n) as [-> | ->] end; cbn; tauto.
  - destruct SZ as [<- |[<- |[]]]; destruct (PL _ _ _ _ _ P) as [-> |[-> | ->]]; match goal with |- In [cls (Reg ?z ?n); _] _ => destruct (RG z n) as [-> | ->] end; cbn; tauto.
  - destruct SZ as [<- |[<- |[]]]; match goal with |- In [cls (Reg ?z ?n); _] _ => destruct (RG z n) as [-> | ->] end; cbn; tauto.
  - destruct SZ as [<- |[<- |[]]]; cbn; tauto.
  - destruct SZ as [<- |[<- |[]]]; match goal with |- In [cls (Reg ?z ?n); _] _ => destruct (RG z n) as [-> | ->] end; cbn; tauto.
  - destruct (RG 32 r) as [-> | ->]; cbn; tauto.
  - destruct SZ as [-> |[-> _]]; match goal with |- In [cls (Reg ?z ?n)] _ => destruct (RG z n) as [-> | ->] end; cbn; tauto.
  - destruct (RG 32 r) as [-> | ->]; cbn; tauto.
  - destruct (RG 32 r) as [-> | ->]; cbn; tauto.
  - cbn; tauto.
Qed.
Definition arg_dec (a b : arg) : {a = b} + {a <> b}. Proof. decide equality. Defined.
Definition args_eqb (a b : list arg) : bool := if list_eq_dec arg_dec a b then true else false.
Definition bytes_eqb (a b : bytes) : bool := if list_eq_dec Z.eq_dec a b then true else false.
Definition both_regs (os : list opd) : bool := match os with [Reg _ _; Reg _ _] => true | _ => false end.
Definition is_form (f : form) (g : form) : bool := match f, g with RegRm, RegRm | RmReg, RmReg => true | _, _ => false end.
(** The row taken for operands of this shape is the one of the manual, or, between two
    registers, the row of the same name the other way round. *)
Definition chosen (rows : list (Z * list arg)) (mans : list (bytes * form)) (op : bytes) (f : form) (os : list opd) : bool :=
  match find (fun c => negb (skipped os c)) rows with
  | Some (code, args) =>
      bytes_eqb (x_base code) op && args_eqb args (args_of f) && op_good op f ||
      is_form f RegRm && both_regs os && args_eqb args (args_of RmReg) && op_good (x_base code) RmReg &&
        existsb (fun '(op', f') => bytes_eqb (x_base code) op' && is_form f' RmReg) mans
  | None => false
  end.
Definition bare_row (rows : list (Z * list arg)) : option Z :=
  option_map fst (find (fun c => match snd c with [] => true | _ => false end) rows).
Definition entry_ok (tab : list (str * list (Z * list arg))) (x : str * (bytes * form)) : bool :=
  let '(m, (op, f)) := x in
  match dget str_eqb tab m with
  | Some rows =>
      match f with
      | Alone _ size =>
          match bare_row rows with
          | Some k => bytes_eqb [k] op && byte_b k && negb (starts_with #"REP" m) &&
              match size with None => negb (str_in m x_implicit32) | Some z => str_in m x_implicit32 && (z =? 32) end
          | None => false
          end
      | _ => let mans := map snd (filter (fun y => str_eqb (fst y) m) manual) in forallb (chosen rows mans op f) (shapes f)
      end
  | None => false
  end.
Definition repeat_ok (tab : list (str * list (Z * list arg))) (x : str * Z) : bool :=
  match dget str_eqb tab (fst x) with
  | Some ((k, []) :: _) => (k =? snd x) && byte_b k && starts_with #"REP" (fst x) && negb (str_in (fst x) x_implicit32)
  | _ => false
  end.
Definition table_ok : bool := let tab := x86_opcodes in forallb (entry_ok tab) manual && forallb (repeat_ok tab) repeats.
Lemma table_checked : table_ok = true. Proof. vm_cast_no_check (eq_refl true). Qed.
Strategy expand [table_ok].
Lemma args_eq : forall a b, args_eqb a b = true -> a = b. Proof. intros a b. unfold args_eqb. destruct (list_eq_dec arg_dec a b); [auto|discriminate]. Qed.
Lemma bytes_eq : forall a b, bytes_eqb a b = true -> a = b. Proof. intros a b. unfold bytes_eqb. destruct (list_eq_dec Z.eq_dec a b); [auto|discriminate]. Qed.
Lemma entry_checked : forall x, In x manual -> entry_ok x86_opcodes x = true.
Proof. intros x I. pose proof table_checked as T. unfold table_ok in T. apply andb_prop in T. destruct T as [T _]. rewrite forallb_forall in T. exact (T x I). Qed.
Lemma repeat_checked : forall x, In x repeats -> repeat_ok x86_opcodes x = true.
Proof. intros x I. pose proof table_checked as T. unfold table_ok in T. apply andb_prop in T. destruct T as [_ T]. rewrite forallb_forall in T. exact (T x I). Qed.
Lemma find_split : forall X (f : X -> bool) l x, find f l = Some x -> exists l1 l2, l = l1 ++ x :: l2 /\ f x = true /\ forallb (fun y => negb (f y)) l1 = true.
Proof.
  intros X f l x. induction l as [|y l IH]; cbn [find]; [discriminate|]. destruct (f y) eqn:E.
  - intros H. injection H as <-. exists [], l. auto.
  - intros H. destruct (IH H) as (l1 & l2 & -> & F & A). exists (y :: l1), l2. cbn [app forallb]. rewrite E. auto.
Qed.
Lemma pack_bytes : forall l, Forall is_byte l -> pack_byte (map Some l) = Ok l.
Proof.
  intros l F. induction F as [|x l B F IH]; [reflexivity|]. unfold is_byte in B. pose proof (MosFacts.pack_byte1 x ltac:(lia)) as P1.
  unfold pack_byte, pack_u in *. cbn [map struct_pack] in *. destruct (struct_pack1 _ _) as [b1|]; [|discriminate P1]. cbn [rbind] in *.
  rewrite app_nil_r in P1. injection P1 as ->. rewrite IH. reflexivity.
Qed.
(** The instruction with the operands of one row. *)
Lemma row_call : forall s rows code args f os ops b ds t0, written os ops -> find (fun c => negb (skipped (map cls os) c)) rows = Some (code, args) ->
  args = args_of f -> op_good (x_base code) f = true -> args_of f <> [] -> enc s (x_base code) f os b ds -> In (x86_bits s) [16; 32; 64] -> 0 <= pc s ->
  forall rep, x_conditions rep (t0 :: ops) rows s = (referring s ds, Ok (Some b)).
Proof.
  intros s rows code args f os ops b ds t0 W FI -> G NE E MO PC rep. destruct (find_split _ _ _ _ FI) as (l1 & l2 & -> & _ & A).
  assert (ON : os <> []) by (intros ->; inversion E; subst; contradiction).
  rewrite (skips_rows rep os t0 ops l1 _ s W ON).
  2: { rewrite forallb_forall in A |- *. intros y I. specialize (A y I). rewrite negb_involutive in A. unfold skipped in *. rewrite skips_cls in A. exact A. }
  destruct (row_runs s _ f os ops b ds t0 W E MO PC G NE) as (base & blob & X & <- & B).
  cbn [x_conditions]. destruct (args_of f) as [|a l] eqn:AF; [contradiction|]. rewrite (written_two _ _ _ W ON). fold m0. unfold bind at 1. rewrite X.
  unfold bind, lift. rewrite (pack_bytes _ B). reflexivity.
Qed.
Lemma bare_call : forall rep m t rows k, bare_row rows = Some k -> upper t = m -> starts_with #"REP" m = false -> byte_b k = true -> forall s,
  x_conditions rep [t] rows s = (s, Ok (Some ((if str_in m x_implicit32 && (x86_bits s =? 16) then [0x66] else []) ++ [k]))).
Proof.
  intros rep m t rows k BR U RP BK s. induction rows as [|[code args] rows IH]; [discriminate BR|]. unfold bare_row in BR. cbn [find snd] in BR. destruct args as [|a args].
  - cbn [option_map fst] in BR. injection BR as ->. cbn [x_conditions]. unfold bind at 1. unfold tok_at. cbn [nth_error]. unfold ret at 1. rewrite get_step, U, RP.
    assert (B1 : pack_byte [Some k] = Ok [k]) by (apply (pack_bytes [k]); apply byte_bytes; cbn [forallb]; rewrite BK; reflexivity).
    assert (B2 : pack_byte [Some 0x66; Some k] = Ok [0x66; k]) by (apply (pack_bytes [0x66; k]); apply byte_bytes; cbn [forallb]; rewrite BK; reflexivity).
    destruct (str_in m x_implicit32 && (x86_bits s =? 16)).
    + unfold bind, lift. rewrite B2. reflexivity.
    + cbn [length Nat.eqb]. unfold bind, lift. rewrite B1. reflexivity.
  - cbn [x_conditions length Nat.ltb Nat.leb]. apply IH. exact BR.
Qed.
Lemma call_rep : forall cs t0 t, x86_call cs [t0; t] =
  x_conditions match dget str_eqb x86_opcodes (upper t) with Some cs => x86_call cs [t] | None => praise KeyError end [t0; t] cs.
Proof. reflexivity. Qed.
Lemma call_some : forall cs tokens, exists rep, x86_call cs tokens = x_conditions rep tokens cs.
Proof. intros cs [|t [|t' rest]]; eexists; reflexivity. Qed.
Lemma alone_call : forall m op modes size s b ds t, In (m, (op, Alone modes size)) manual -> upper t = m -> enc s op (Alone modes size) [] b ds ->
  ds = [] /\ exists rows, dget str_eqb x86_opcodes m = Some rows /\ x86_call rows [t] s = (s, Ok (Some b)) /\ forall rep, x_conditions rep [t] rows s = (s, Ok (Some b)).
Proof.
  intros m op modes size s b ds t I U E. apply entry_checked in I. cbn [entry_ok] in I. destruct (dget str_eqb x86_opcodes m) as [rows|] eqn:D; [|discriminate I].
  destruct (bare_row rows) as [k|] eqn:BR; [|discriminate I]. repeat (apply andb_prop in I; destruct I as [I ?]). apply bytes_eq in I. subst op.
  match goal with H : negb _ = true |- _ => apply negb_true_iff in H end.
  inversion E as [| | | | | | | | | |? ? ? IM]; subst. split; [reflexivity|]. exists rows. split; [reflexivity|].
  assert (X : forall rep, x_conditions rep [t] rows s = (s, Ok (Some (match size with Some z => size_prefix (x86_bits s) z | None => [] end ++ [k])))).
  { intros rep. rewrite (bare_call rep (upper t) t rows k BR eq_refl) by assumption. do 3 f_equal. f_equal. destruct size as [z|].
    - match goal with H : _ && (z =? 32) = true |- _ => apply andb_prop in H; destruct H as [HA HB] end. apply Z.eqb_eq in HB. subst z. rewrite HA. unfold size_prefix.
      cbn [andb Z.eqb Pos.eqb]. destruct (x86_bits s =? 16); reflexivity.
    - match goal with H : negb (str_in _ _) = true |- _ => apply negb_true_iff in H; rewrite H end. reflexivity. }
  destruct (call_some rows [t]) as (rep & ->). split; [apply X|exact X].
Qed.
Lemma x86_calls : forall s m t0 ops b ds, In (x86_bits s) [16; 32; 64] -> 0 <= pc s -> upper t0 = m -> encoded x86_p s m ops b ds ->
  exists rows b' ds', encoded x86_p s m ops b' ds' /\ dget str_eqb x86_opcodes m = Some rows /\ x86_call rows (t0 :: ops) s = (referring s ds', Ok (Some b')).
Proof.
  intros s m t0 ops b ds MO PC U EN. destruct EN as [m ops op f os b ds I W E|m k t op f b I I2 E].
  - destruct (args_of f) as [|a0 l0] eqn:AF.
    + destruct f; try discriminate AF. assert (os = []) as -> by (inversion E; reflexivity). assert (ops = []) as -> by (inversion W; reflexivity).
      destruct (alone_call _ _ _ _ _ _ _ t0 I U E) as (-> & rows & D & C & _). exists rows, b, []. split; [eapply n_plain; eassumption|]. split; [exact D|exact C].
    + assert (NE : args_of f <> []) by (rewrite AF; discriminate). pose proof (shaped _ _ _ _ _ _ E NE) as SH.
      pose proof (entry_checked _ I) as CK. cbn [entry_ok] in CK. destruct (dget str_eqb x86_opcodes m) as [rows|] eqn:D; [|discriminate CK].
      assert (CH : chosen rows (map snd (filter (fun y => str_eqb (fst y) m) manual)) op f (map cls os) = true).
      { destruct f; try discriminate AF; cbv zeta in CK; rewrite forallb_forall in CK; apply CK; exact SH. }
      clear CK. unfold chosen in CH. destruct (find _ rows) as [[code args]|] eqn:FI; [|discriminate CH]. apply orb_prop in CH. destruct CH as [CH|CH].
      * apply andb_prop in CH. destruct CH as [CH G]. apply andb_prop in CH. destruct CH as [B AR]. apply bytes_eq in B. apply args_eq in AR. subst op.
        exists rows, b, ds. split; [eapply n_plain; eassumption|]. split; [reflexivity|]. destruct (call_some rows (t0 :: ops)) as (rep & ->). eapply row_call; eassumption.
      * repeat (apply andb_prop in CH; destruct CH as [CH ?]). destruct f; try discriminate CH. clear CH.
        match goal with H : existsb _ _ = true |- _ => rewrite existsb_exists in H; destruct H as ([op' f'] & IN & Q) end. apply andb_prop in Q. destruct Q as [Q1 Q2].
        destruct f'; try discriminate Q2. apply bytes_eq in Q1. subst op'. apply in_map_iff in IN. destruct IN as ([m' p'] & EQ & IN). cbn [snd] in EQ. subst p'.
        apply filter_In in IN. destruct IN as [IN NM]. cbn [fst] in NM. apply str_eqb_eq in NM. subst m'.
        match goal with H : args_eqb _ _ = true |- _ => apply args_eq in H end.
        inversion E as [|? size o r md rm d SZ P| | | | | | | | |]; subst.
        destruct P as [n|n X6 X7|n d v y X6 X7 X8 X9]; try (match goal with H : both_regs _ = true |- _ => discriminate H end).
        assert (E2 : enc s (x_base code) RmReg [Reg size r; Reg size n] (size_prefix (x86_bits s) size ++ x_base code ++ [modrm 3 n r] ++ []) []) by (constructor; [exact SZ|constructor]).
        eexists rows, _, _. split; [eapply n_plain; [exact IN|exact W|exact E2]|]. split; [reflexivity|]. destruct (call_some rows (t0 :: ops)) as (rep & ->).
        eapply row_call; try eassumption; try reflexivity. discriminate.
  - pose proof (repeat_checked _ I) as CK. unfold repeat_ok in CK. cbn [fst snd] in CK. destruct (dget str_eqb x86_opcodes m) as [rows|] eqn:D; [|discriminate CK].
    destruct rows as [|[k' [|]] rows]; try discriminate CK. repeat (apply andb_prop in CK; destruct CK as [CK ?]). apply Z.eqb_eq in CK. subst k'.
    assert (I3 : In (upper t, (op, f)) manual) by (unfold manual; rewrite !in_app_iff; tauto).
    assert (AL : exists modes size, f = Alone modes size).
    { unfold strings in I2. rewrite !in_app_iff, !in_map_iff in I2. destruct I2 as [([? ?] & Q & _)|[([? ?] & Q & _)|[([? ?] & Q & _)|([? ?] & Q & _)]]]; injection Q as _ _ Q; eexists; eexists; symmetry; exact Q. }
    destruct AL as (modes & size & ->). destruct (alone_call _ _ _ _ _ _ _ t I3 eq_refl E) as (_ & rows2 & D2 & C2 & _).
    exists ((k, []) :: rows), (k :: b), []. split; [eapply n_repeat; eassumption|]. split; [reflexivity|]. rewrite call_rep. cbn [x_conditions]. unfold tok_at. cbn [nth_error].
    unfold bind at 1, ret at 1. rewrite get_step, U.
    match goal with H : negb (str_in _ _) = true |- _ => apply negb_true_iff in H; rewrite H end. cbn [andb].
    match goal with H : starts_with _ _ = true |- _ => rewrite H end. rewrite D2.
    assert (B1 : pack_byte [Some k] = Ok [k]). { apply (pack_bytes [k]); apply byte_bytes; cbn [forallb]. match goal with H : byte_b k = true |- _ => rewrite H end. reflexivity. }
    unfold bind, lift. rewrite B1. rewrite C2. reflexivity.
Qed.
Theorem x86_encoding : forall e s words t0 ops b ds, In (x86_bits s) [16; 32; 64] -> 0 <= pc s -> opcode_stmt (x86 e) s words t0 ops ->
  encoded x86_p s (upper t0) ops b ds ->
  exists b' ds', encoded x86_p s (upper t0) ops b' ds' /\ assembles (x86 e) s words b' ds'.
Proof.
  intros e s words t0 ops b ds MO PC OS EN. destruct (x86_calls _ _ t0 _ _ _ MO PC eq_refl EN) as (rows & b' & ds' & EN' & D & C).
  exists b', ds'. split; [exact EN'|]. intros fuel l. rewrite (exec_opcode _ _ _ _ _ _ _ OS). change (op_key (x86 e) t0) with (upper t0).
  rewrite (opcode_fun _ _ _ (x86_call rows)) by (rewrite x86_get, D; reflexivity). rewrite C. eexists. split; [reflexivity|].
  unfold emitted. reflexivity.
Qed.
