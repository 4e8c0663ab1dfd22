(** The 8086 handlers are well-behaved. *)
From Coq Require Import Lia.
From Verif Require Import Py PyFacts Utils Tokenizer State Assembler Instr I8086.
From Verif Require Import SpecUtils SpecExec SpecLink SpecCpu Events CpuFacts FitFacts M68Facts SpecI86 I86Sem I86Facts I86Rows I86Read I86Enc.
Local Open Scope Z_scope.

(** What the handlers deliver, later references replacing earlier ones to the same place. *)
Definition good (b : option bytes) (ds : list labeldata) : Prop :=
  exists ds', (forall s, referring s ds = referring s ds') /\ Forall sound_ref ds' /\ ok_out b ds'.
Lemma good_handler : forall f, (forall tokens, pure good (f tokens)) -> well_behaved f /\ neat f.
Proof.
  intros f H. split.
  - apply pure_good. intros tokens. eapply pure_weaken; [apply H|]. intros b ds (ds' & _ & _ & O) x E. apply (O x E).
  - intros tokens s s1 b E. destruct (H tokens s) as (ds & r & H1 & H2 & H3). rewrite (H1 s (view_refl s)) in E. injection E as <- ->.
    destruct (H3 _ eq_refl) as (ds' & R & SD & O). exists ds'. split; [apply R|]. split; [exact SD|]. apply (O b eq_refl).
Qed.
Lemma good_plain : forall b ds, Forall sound_ref ds -> ok_out b ds -> good b ds.
Proof. intros b ds S O. exists ds. split; [reflexivity|]. split; assumption. Qed.
(** The soundness of the references comes with [pure]. *)
Lemma pure_sound : forall A (Q : A -> list labeldata -> Prop) m, pure Q m -> pure (fun a ds => Q a ds /\ Forall sound_ref ds) m.
Proof. intros A Q m H s. destruct (H s) as (ds & r & H1 & H2 & H3). exists ds, r. split; [exact H1|]. split; [exact H2|]. intros a E. auto. Qed.

(** ** Operands *)
Definition one_read (r : result) (ds : list labeldata) : Prop :=
  match r with None => ds = [] | Some (_, b, _) => Forall is_byte b /\ placed (zlen b + 1) ds end.
Lemma byte_of_pack : forall vs b, (exists be fs, struct_pack be fs vs = Ok b) -> Forall is_byte b.
Proof. intros vs b (be & fs & H). eapply struct_pack_byte; eassumption. Qed.
Ltac fine := first [apply placed_nil | apply placed_one; cbn; packed; rewrite ?zlen_app; repeat out_len; lia].
Ltac all_bytes := rewrite ?Forall_app; repeat split; packed; eapply struct_pack_byte; eassumption.
Lemma pure_key : forall v, pure (fun x ds => ds = [] /\ v = Some x) (key v).
Proof. intros [z|]; cbn [key]; [apply pure_ret; auto|apply pure_praise]. Qed.
Lemma build_pure : forall m, pure (fun b ds => Forall is_byte b /\ placed (zlen b + 1) ds /\ (mo_disp m = None -> ds = []) /\ mo_reg m <> None) (build_modrm m).
Proof.
  intros m. unfold build_modrm. eapply pure_bind; [apply pure_key|]. intros md ? [-> _]. eapply pure_bind; [apply pure_key|]. intros rg ? [-> RG].
  eapply pure_bind; [apply pure_key|]. intros rm ? [-> _]. eapply pure_bind; [apply pure_lift|]. intros v ? [_ ->].
  eapply pure_bind; [apply pure_lift|]. intros blob ? [B ->].
  destruct (mo_disp m) as [d|].
  - eapply pure_bind; [apply pure_poil; sound|]. intros w ds [-> |[-> ->]]; (eapply pure_bind; [apply pure_lift|]; intros b ? [P ->]; apply pure_ret;
      cbn [app]; split; [all_bytes|split; [fine|split; [discriminate|congruence]]]).
  - apply pure_ret. cbn [app]. split; [all_bytes|]. split; [fine|]. split; [reflexivity|congruence].
Qed.
Lemma build_if_pure : forall m, pure (fun b ds => Forall is_byte b /\ placed (zlen b + 1) ds /\ (mo_disp m = None \/ mo_reg m = None -> ds = []) /\
    (mo_reg m = None -> b = [])) (build_if_reg m).
Proof.
  intros m. unfold build_if_reg. destruct (mo_reg m) eqn:E.
  - eapply pure_weaken; [apply build_pure|]. intros b ds (B & P & D & _). split; [exact B|]. split; [exact P|]. split; [|discriminate].
    intros [X|X]; [auto|discriminate].
  - apply pure_ret. split; [constructor|]. split; [apply placed_nil|]. auto.
Qed.
Lemma memory_pure : forall tokens index m, pure one_read (arg_memory tokens index m).
Proof.
  intros tokens index m. unfold arg_memory. destruct (index_from _ _ _) as [e|]; [|apply pure_araise].
  destruct (get_modrm_mod _) as [[[[md rm] delta] d]|]; [|apply pure_ret; reflexivity]. cbv zeta.
  eapply pure_bind; [apply build_if_pure|]. intros b ds (B & P & _). apply pure_ret. cbn [one_read]. rewrite app_nil_r. auto.
Qed.
Lemma memory_quiet : forall tokens index m, mo_reg m = None -> pure (fun r ds => ds = [] /\
    match r with Some (_, b, m') => b = [] /\ (mo_disp m' = None \/ mo_reg m' = None) | None => True end) (arg_memory tokens index m).
Proof.
  intros tokens index m E. unfold arg_memory. destruct (index_from _ _ _) as [e|]; [|apply pure_araise].
  destruct (get_modrm_mod _) as [[[[md rm] delta] d]|]; [|apply pure_ret; auto]. cbv zeta.
  eapply pure_bind; [apply build_if_pure|]. intros b ds (B & P & D & R). apply pure_ret. cbn [mo_reg mo_disp] in *. rewrite app_nil_r.
  split; [apply D; auto|]. split; [apply R; exact E|auto].
Qed.
Lemma reg_pure : forall regs tokens index m, pure one_read (arg_reg regs tokens index m).
Proof.
  intros regs tokens index m. unfold arg_reg. eapply pure_bind; [apply pure_tok|]. intros t ? ->. destruct (index_of _ regs) as [i|]; [|apply pure_ret; reflexivity].
  cbv zeta. destruct (Nat.ltb 1 index).
  - eapply pure_bind; [apply build_pure|]. intros b ds (B & P & _). apply pure_ret. cbn [one_read app]. rewrite app_nil_r. auto.
  - apply pure_ret. cbn [one_read]. split; [constructor|apply placed_nil].
Qed.
Lemma rm_pure : forall regs tokens index m, pure one_read (arg_rm regs tokens index m).
Proof.
  intros regs tokens index m. unfold arg_rm. eapply pure_bind; [apply pure_tok|]. intros t ? ->. cbv zeta. destruct (index_of _ regs) as [i|].
  - eapply pure_bind; [apply build_if_pure|]. intros b ds (B & P & _). apply pure_ret. cbn [one_read app]. rewrite app_nil_r. auto.
  - destruct (str_eqb _ _); [|apply pure_ret; reflexivity]. apply memory_pure.
Qed.
Lemma direct_ret : forall tokens index, exists o, direct tokens index = ret o.
Proof.
  intros tokens index. unfold direct. destruct (firstn 3 (skipn index tokens)) as [|a [|b [|c [|]]]]; eauto.
  destruct (_ && _); eauto.
Qed.
Lemma pure_get_parse : forall B (R : B -> list labeldata -> Prop) p t n sg (k : option Z -> M B), (forall v, pure R (k v)) ->
  pure R (let! s := get in let! v := lift (parse_integer p (labels s) t n sg) in k v).
Proof.
  intros B R p t n sg k H s. destruct (parse_integer p (labels s) t n sg) as [v|e] eqn:E.
  - destruct (H v s) as (ds & r & H1 & H2 & H3). exists ds, r. split; [|auto]. intros s2 V. rewrite get_bind. unfold bind, lift.
    pose proof V as (L & _). rewrite L, E. apply H1. exact V.
  - exists [], (Err e). split; [|split; [constructor|discriminate]]. intros s2 V. rewrite get_bind. unfold bind, lift.
    pose proof V as (L & _). rewrite L, E. reflexivity.
Qed.
Ltac value := eapply pure_bind; [apply pure_poil; sound|]; intros ? ? [-> |[-> ->]].
Ltac packs := eapply pure_bind; [apply pure_lift|]; intros ? ? [? ->]; apply pure_ret; cbn [one_read app]; split; [all_bytes|fine].
Lemma arg_pure : forall a tokens index m, mo_disp m = None \/ mo_reg m = None -> pure one_read (run_arg a tokens index m).
Proof.
  intros a tokens index m DR. destruct a; cbn [run_arg]; try apply rm_pure; try apply reg_pure.
  - eapply pure_bind; [apply pure_tok|]. intros t ? ->. apply pure_ret. destruct (str_eqb _ _); cbn [one_read]; [|reflexivity]. split; [constructor|apply placed_nil].
  - eapply pure_bind; [apply pure_tok|]. intros t ? ->. destruct (str_in _ _); [apply pure_ret; reflexivity|]. value; packs.
  - eapply pure_bind; [apply pure_tok|]. intros t ? ->. destruct (str_in _ _); [apply pure_ret; reflexivity|]. value; packs.
  - eapply pure_bind; [apply pure_tok|]. intros t ? ->. destruct (_ || _); [apply pure_ret; reflexivity|].
    apply pure_pc with (k := fun z => let! v := parse_integer_or_label i86_p (lab t 1 8 1 (z + 2)) false in
      let! b := lift (pack_8s [Some v]) in ret (Some (1%nat, b, m))). intros z. value; packs.
  - eapply pure_bind; [apply pure_tok|]. intros t ? ->. destruct (_ || _); [apply pure_ret; reflexivity|].
    apply pure_pc with (k := fun z => let! v := parse_integer_or_label i86_p (lab t 2 16 1 (z + 3)) false in
      let! b := lift (pack_le16u [Some v]) in ret (Some (1%nat, b, m))). intros z. value; packs.
  - destruct (direct_ret tokens index) as [[t|] ->]; rewrite ret_bind; [|apply pure_ret; reflexivity]. value; packs.
  - destruct (direct_ret tokens index) as [[t|] ->]; rewrite ret_bind; [|apply pure_ret; reflexivity]. value; packs.
  - destruct (Nat.eqb _ 1); [apply pure_ret; split; [constructor|apply placed_nil]|]. destruct (Nat.eqb _ 2); [|apply pure_ret; reflexivity].
    eapply pure_bind; [apply pure_tok|]. intros t ? ->.
    apply pure_get_parse. intros [v|]; [|apply pure_ret; reflexivity].
    destruct (v =? 10); [apply pure_ret; split; [constructor|apply placed_nil]|]. packs.
  - eapply pure_bind; [apply pure_tok|]. intros t ? ->. destruct (str_eqb _ _); [apply memory_pure|apply pure_ret; reflexivity].
  - destruct (direct_ret tokens index) as [[t|] ->]; rewrite ret_bind; [|apply pure_ret; reflexivity]. cbv zeta.
    eapply pure_bind; [apply build_pure|]. cbn [mo_disp mo_reg]. intros b ds (B & P & D & R). destruct DR as [DR|DR]; [|congruence].
    rewrite (D DR). pose proof (zlen_nonneg b) as Z0.
    value; (eapply pure_bind; [apply pure_lift|]; intros ? ? [? ->]; apply pure_ret; cbn [one_read app]; split; [apply Forall_app; split; [exact B|all_bytes]|fine]).
  - eapply pure_bind; [apply pure_tok|]. intros t ? ->. destruct (_ && _); [|apply pure_ret; reflexivity].
    destruct (split_colon [] t) as [|x [|y [|]]]; try apply pure_praise.
    value; value; (eapply pure_bind; [apply pure_lift|]; intros ? ? [? ->]; apply pure_ret; cbn [one_read app]; split; [all_bytes|]); try fine.
    split; repeat constructor; cbn; packed; repeat out_len; lia.
  - eapply pure_bind; [apply pure_tok|]. intros t ? ->. apply pure_ret. destruct (str_eqb _ _); cbn [one_read]; [|reflexivity]. split; [constructor|apply placed_nil].
Qed.

(** ** Rows *)
Definition quiet_first (a : arg) : bool := match a with AReg _ | AEb | AEv | AGb | AGv | ASw => true | _ => false end.
Definition calm (r : Z * list arg) : bool :=
  let '(base, args) := r in
  match args with [] | [_] => true | [a; _] => quiet_first a && negb (base >? 255) | _ => false end.
Lemma first_pure : forall a tokens m, quiet_first a = true -> mo_reg m = None -> mo_disp m = None ->
  pure (fun r ds => ds = [] /\ match r with Some (_, b, m') => b = [] /\ (mo_disp m' = None \/ mo_reg m' = None) | None => True end) (run_arg a tokens 1 m).
Proof.
  intros a tokens m Q R D.
  assert (RM : forall regs, pure (fun r ds => ds = [] /\ match r with Some (_, b, m') => b = [] /\ (mo_disp m' = None \/ mo_reg m' = None) | None => True end) (arg_rm regs tokens 1 m)).
  { intros regs. unfold arg_rm. eapply pure_bind; [apply pure_tok|]. intros t ? ->. cbv zeta. destruct (index_of _ regs) as [i|].
    - eapply pure_bind; [apply build_if_pure|]. intros b ds (B & P & X & Y). apply pure_ret. cbn [mo_reg mo_disp app] in *. rewrite app_nil_r. auto.
    - destruct (str_eqb _ _); [|apply pure_ret; auto]. apply memory_quiet. exact R. }
  assert (RG : forall regs, pure (fun r ds => ds = [] /\ match r with Some (_, b, m') => b = [] /\ (mo_disp m' = None \/ mo_reg m' = None) | None => True end) (arg_reg regs tokens 1 m)).
  { intros regs. unfold arg_reg. eapply pure_bind; [apply pure_tok|]. intros t ? ->. destruct (index_of _ regs) as [i|]; [|apply pure_ret; auto].
    cbn [Nat.ltb Nat.leb]. apply pure_ret. auto. }
  destruct a; try discriminate; cbn [run_arg]; try apply RM; try apply RG.
  eapply pure_bind; [apply pure_tok|]. intros t ? ->. apply pure_ret. destruct (str_eqb _ _); auto.
Qed.
Definition blob_ok (r : option bytes) (ds : list labeldata) : Prop :=
  match r with None => ds = [] | Some b => Forall is_byte b /\ placed (zlen b + 1) ds end.
Lemma row_pure : forall base args tokens, calm (base, args) = true ->
  pure blob_ok (run_args args tokens 1 (snd (if base >? 0xFF then (Z.shiftr base 8, Modrm None (Some (Z.land base 0xFF)) None None) else (base, Modrm None None None None))) []).
Proof.
  intros base args tokens C. destruct args as [|a [|a2 [|]]]; try discriminate; cbn [run_args].
  - apply pure_ret. split; [constructor|apply placed_nil].
  - eapply pure_bind; [apply arg_pure; destruct (base >? 255); cbn; auto|]. intros [[[d b] m']|] ds O; apply pure_ret; cbn [one_read blob_ok app] in *; rewrite ?app_nil_r; [exact O|subst; reflexivity].
  - cbn [calm] in C. apply andb_prop in C. destruct C as [Q B]. destruct (base >? 255); [discriminate|]. cbn [snd].
    eapply pure_bind; [apply first_pure; [exact Q|reflexivity|reflexivity]|]. intros [[[d b] m']|] ds [-> O]; [|apply pure_ret; reflexivity].
    destruct O as [-> O]. cbn [app]. eapply pure_bind; [apply arg_pure; exact O|].
    intros [[[d2 b2] m2]|] ds O2; apply pure_ret; cbn [one_read blob_ok app] in *; rewrite ?app_nil_r; [exact O2|subst; reflexivity].
Qed.
Lemma pack_byte_len : forall k b, pack_byte [Some k] = Ok b -> Forall is_byte b /\ zlen b = 1.
Proof. intros k b H. split; [all_bytes|]. packed. out_len. reflexivity. Qed.
Lemma cons_pure : forall r rest tokens, calm r = true -> pure good (i86_call rest tokens) -> pure good (i86_call (r :: rest) tokens).
Proof.
  intros [base args] rest tokens C IH. pose proof (row_pure base args tokens C) as RP. cbn [i86_call].
  destruct (if base >? 255 then _ else _) as [k m]. cbn [snd] in RP. destruct args as [|a args].
  - destruct (Nat.eqb _ 1); [|apply pure_araise]. eapply pure_bind; [apply pure_lift|]. intros b ? [P ->]. apply pure_ret.
    apply pack_byte_len in P. apply good_plain; [constructor|]. intros x E. injection E as <-. split; [apply P|apply placed_nil].
  - destruct (Nat.ltb _ 2); [exact IH|]. eapply pure_bind; [apply pure_sound; exact RP|]. intros [b|] ds [O S]; cbn [blob_ok] in O.
    + eapply pure_bind; [apply pure_lift|]. intros h ? [P ->]. apply pure_ret. rewrite !app_nil_r. apply pack_byte_len in P. destruct P as [P1 P2].
      apply good_plain; [exact S|]. intros x E. injection E as <-. split; [apply Forall_app; split; [exact P1|apply O]|].
      rewrite zlen_app, P2, Z.add_comm. apply O.
    + subst ds. exact IH.
Qed.
Lemma nil_pure : forall tokens, pure good (i86_call [] tokens).
Proof. intros tokens. apply pure_ret. apply good_plain; [constructor|]. intros x E. discriminate. Qed.
Lemma calm_pure : forall rows rest tokens, forallb calm rows = true -> pure good (i86_call rest tokens) -> pure good (i86_call (rows ++ rest) tokens).
Proof.
  induction rows as [|r rows IH]; intros rest tokens C R; [exact R|]. cbn [forallb] in C. apply andb_prop in C. destruct C as [C1 C2].
  cbn [app]. apply cons_pure; [exact C1|]. apply IH; assumption.
Qed.

(** ** MOV and OUT *)

(** Rows that do not match and leave nothing behind. *)
Definition passed (rows : list (Z * list arg)) (tokens : list str) : Prop :=
  pure (fun r ds => r = None /\ ds = []) (i86_call rows tokens).
Lemma passed_cons : forall base a args rest tokens, (forall m, pure (fun r ds => r = None /\ ds = []) (run_arg a tokens 1 m)) ->
  (2 <= length tokens)%nat -> passed rest tokens -> passed ((base, a :: args) :: rest) tokens.
Proof.
  intros base a args rest tokens H L R. unfold passed. cbn [i86_call]. destruct (if base >? 255 then _ else _) as [k m].
  replace (Nat.ltb (length tokens) 2) with false by (symmetry; apply Nat.ltb_ge; exact L).
  eapply pure_bind with (Q := fun r ds => r = None /\ ds = []).
  - cbn [run_args]. eapply pure_bind; [apply H|]. intros r ds [-> ->]. apply pure_ret. auto.
  - intros r ds [-> ->]. exact R.
Qed.
(** Two rows that read the first operand and accept one register as the second. *)
Definition at1 (n : Z) (ds : list labeldata) : Prop := ds = [] \/ exists d, ds = [d] /\ ld_offset d = 1 /\ ld_size d <= n.
Lemma reading_pure : forall a w tokens n m, (a = AOb /\ n = 2) \/ (a = AOv /\ n = 2) \/ (a = AIb /\ n = 1) ->
  pure (fun r ds => at1 n ds /\ match r with Some b => Forall is_byte b /\ zlen b = n | None => True end) (run_args [a; AReg w] tokens 1 m []).
Proof.
  intros a w tokens n m A.
  assert (H : pure (fun r ds => at1 n ds /\ match r with Some (_, b, _) => Forall is_byte b /\ zlen b = n | None => True end) (run_arg a tokens 1 m)).
  { destruct A as [[-> ->]|[[-> ->]|[-> ->]]]; cbn [run_arg].
    - destruct (direct_ret tokens 1) as [[t|] ->]; rewrite ret_bind; [|apply pure_ret; split; [left; reflexivity|exact I]].
      value; (eapply pure_bind; [apply pure_lift|]; intros ? ? [? ->]; apply pure_ret; cbn [app];
        split; [first [left; reflexivity|right; eexists; split; [reflexivity|]; cbn; lia]|]; split; [all_bytes|packed; out_len; reflexivity]).
    - destruct (direct_ret tokens 1) as [[t|] ->]; rewrite ret_bind; [|apply pure_ret; split; [left; reflexivity|exact I]].
      value; (eapply pure_bind; [apply pure_lift|]; intros ? ? [? ->]; apply pure_ret; cbn [app];
        split; [first [left; reflexivity|right; eexists; split; [reflexivity|]; cbn; lia]|]; split; [all_bytes|packed; out_len; reflexivity]).
    - eapply pure_bind; [apply pure_tok|]. intros t ? ->. destruct (str_in _ _); [apply pure_ret; split; [left; reflexivity|exact I]|].
      value; (eapply pure_bind; [apply pure_lift|]; intros ? ? [? ->]; apply pure_ret; cbn [app];
        split; [first [left; reflexivity|right; eexists; split; [reflexivity|]; cbn; lia]|]; split; [all_bytes|packed; out_len; reflexivity]). }
  cbn [run_args]. eapply pure_bind; [exact H|]. intros [[[d b] m']|] ds [A1 B]; [|apply pure_ret; rewrite app_nil_r; auto].
  eapply pure_bind with (Q := fun r es => es = [] /\ match r with Some (_, b, _) => b = [] | None => True end).
  { cbn [run_arg]. eapply pure_bind; [apply pure_tok|]. intros t ? ->. apply pure_ret. destruct (str_eqb _ _); auto. }
  intros [[[d2 b2] m2]|] es [-> B2]; apply pure_ret; rewrite !app_nil_r; [|auto]. subst b2. rewrite app_nil_r. auto.
Qed.
Lemma good_at1 : forall h b n ds1 ds2, at1 n ds1 -> at1 n ds2 -> Forall sound_ref ds1 -> Forall sound_ref ds2 ->
  Forall is_byte h -> zlen h = 1 -> Forall is_byte b -> zlen b = n -> good (Some (h ++ b)) (ds1 ++ ds2).
Proof.
  intros h b n ds1 ds2 A1 A2 S1 S2 H1 H2 B1 B2.
  assert (X : exists ds', at1 n ds' /\ Forall sound_ref ds' /\ forall s, referring s (ds1 ++ ds2) = referring s ds').
  { destruct A1 as [-> |(d1 & -> & O1 & Z1)]; [exists ds2; auto|]. destruct A2 as [-> |(d2 & -> & O2 & Z2)].
    - exists [d1]. split; [right; eauto|]. auto.
    - exists [d2]. split; [right; eauto|]. split; [exact S2|]. intros s. rewrite referring_app. apply referring_twice. congruence. }
  destruct X as (ds' & A & S & R). exists ds'. split; [exact R|]. split; [exact S|]. intros x E. injection E as <-.
  split; [apply Forall_app; auto|]. rewrite zlen_app, H2. destruct A as [-> |(d & -> & O & Z)]; [apply placed_nil|apply placed_one; lia].
Qed.
Lemma two_pure : forall k1 k2 a1 a2 w1 w2 n post tokens,
  (a1 = AOb /\ a2 = AOv /\ n = 2) \/ (a1 = AIb /\ a2 = AIb /\ n = 1) -> k1 >? 255 = false -> k2 >? 255 = false ->
  (2 <= length tokens)%nat -> passed post tokens ->
  pure good (i86_call ((k1, [a1; AReg w1]) :: (k2, [a2; AReg w2]) :: post) tokens).
Proof.
  intros k1 k2 a1 a2 w1 w2 n post tokens A K1 K2 L P. cbn [i86_call]. rewrite K1, K2.
  replace (Nat.ltb (length tokens) 2) with false by (symmetry; apply Nat.ltb_ge; exact L).
  eapply pure_bind; [apply pure_sound, (reading_pure a1 w1 tokens n); destruct A as [(-> & -> & ->)|(-> & -> & ->)]; auto|].
  intros [b|] ds [[A1 B] S1].
  - eapply pure_bind; [apply pure_lift|]. intros h ? [PK ->]. apply pack_byte_len in PK. destruct PK. apply pure_ret. rewrite app_nil_r.
    rewrite <- (app_nil_r ds). destruct B. eapply good_at1; eauto. left. reflexivity.
  - eapply pure_bind; [apply pure_sound, (reading_pure a2 w2 tokens n); destruct A as [(-> & -> & ->)|(-> & -> & ->)]; auto|].
    intros [b|] ds2 [[A2 B2] S2].
    + eapply pure_bind; [apply pure_lift|]. intros h ? [PK ->]. apply pack_byte_len in PK. destruct PK. apply pure_ret. rewrite app_nil_r.
      destruct B2. eapply good_at1; eauto.
    + eapply pure_weaken; [apply pure_sound, P|]. intros r es [[-> ->] _]. exists (ds ++ ds2). rewrite app_nil_r. split; [reflexivity|].
      split; [apply Forall_app; auto|]. intros x E. discriminate.
Qed.
Lemma skip_pure : forall k a args rest tokens, (forall m, pure (fun r ds => r = None /\ ds = []) (run_arg a tokens 1 m)) ->
  pure good (i86_call rest tokens) -> pure good (i86_call ((k, a :: args) :: rest) tokens).
Proof.
  intros k a args rest tokens H R. cbn [i86_call]. destruct (if k >? 255 then _ else _) as [k' m].
  destruct (Nat.ltb (length tokens) 2); [exact R|]. eapply pure_bind with (Q := fun r ds => r = None /\ ds = []).
  - cbn [run_args]. eapply pure_bind; [apply H|]. intros r ds [-> ->]. apply pure_ret. auto.
  - intros r ds [-> ->]. exact R.
Qed.
Lemma short_pure : forall k a args rest tokens, (length tokens < 2)%nat ->
  pure good (i86_call rest tokens) -> pure good (i86_call ((k, a :: args) :: rest) tokens).
Proof.
  intros k a args rest tokens L R. cbn [i86_call]. destruct (if k >? 255 then _ else _) as [k' m].
  replace (Nat.ltb (length tokens) 2) with true by (symmetry; apply Nat.ltb_lt; exact L). exact R.
Qed.
Lemma passed_rows : forall rows tokens, (2 <= length tokens)%nat ->
  (forall k args, In (k, args) rows -> exists a more, args = a :: more /\ forall m, pure (fun r ds => r = None /\ ds = []) (run_arg a tokens 1 m)) ->
  passed rows tokens.
Proof.
  induction rows as [|[k args] rows IH]; intros tokens L H; [apply pure_ret; auto|].
  destruct (H k args (or_introl eq_refl)) as (a & more & -> & P). apply passed_cons; [exact P|exact L|]. apply IH; [exact L|].
  intros k2 args2 I. apply (H k2). right. exact I.
Qed.
(** A word that is not one of the registers. *)
Lemma reg_passes : forall w t tokens, nth_error tokens 1 = Some t -> upper t <> w -> forall m, pure (fun r ds => r = None /\ ds = []) (run_arg (AReg w) tokens 1 m).
Proof.
  intros w t tokens N NE m. cbn [run_arg]. unfold tok_at. rewrite N, ret_bind. rewrite (str_neq _ _ NE). apply pure_ret. auto.
Qed.
Lemma modrm_other : forall t, ~ In (upper t) all_regs -> get_modrm_mod [t] = None.
Proof.
  intros t N. assert (X : forall w, str_in w all_regs = true -> upper w = w -> str_eqb (upper t) (upper w) = false).
  { intros w I U. apply str_neq. rewrite U. intros E. apply N. rewrite E. apply str_in_In. exact I. }
  pose proof (X #"SI" eq_refl eq_refl) as N1. pose proof (X #"DI" eq_refl eq_refl) as N2.
  pose proof (X #"BP" eq_refl eq_refl) as N3. pose proof (X #"BX" eq_refl eq_refl) as N4.
  unfold get_modrm_mod. cbn [find bases map match_ length Nat.eqb match_all match1 andb app]. rewrite N1, N2, N3, N4. reflexivity.
Qed.
Lemma direct_tokens : forall tokens t, direct tokens 1 = ret (Some t) -> exists t0 b c rest, tokens = t0 :: b :: t :: c :: rest /\
  upper b = #"[" /\ upper c = #"]" /\ ~ In (upper t) all_regs.
Proof.
  intros tokens t H.
  assert (NO : forall A (a : A), ret (None : option A) <> ret (Some a)).
  { intros A a E. assert (X : forall s, ret (None : option A) s = ret (Some a) s) by (intros s; rewrite E; reflexivity).
    specialize (X (init_st [])). discriminate. }
  unfold direct in H. destruct tokens as [|t0 [|b [|u [|c rest]]]]; cbn [skipn firstn] in H; try (exfalso; exact (NO _ _ H)).
  destruct (match_ [b; u; c] _ && negb (str_in (upper u) all_regs)) eqn:E; [|exfalso; exact (NO _ _ H)].
  assert (u = t). { assert (X : forall s, ret (Some u) s = ret (Some t) s) by (intros s; rewrite H; reflexivity). specialize (X (init_st [])). unfold ret in X. congruence. }
  subst u. apply andb_prop in E. destruct E as [E1 E2].
  exists t0, b, c, rest. split; [reflexivity|]. cbn [match_ length Nat.eqb match_all match1 andb] in E1. rewrite !andb_true_iff in E1.
  destruct E1 as (B & C). apply str_eqb_eq in B. destruct C as (C & _). apply str_eqb_eq in C. split; [exact B|]. split; [exact C|].
  intros I. apply str_in_In in I. rewrite I in E2. discriminate.
Qed.
Lemma direct_memory : forall tokens t index, direct tokens 1 = ret (Some t) -> index = 1%nat ->
  forall m, pure (fun r ds => r = None /\ ds = []) (arg_memory tokens index m).
Proof.
  intros tokens t index H -> m. destruct (direct_tokens _ _ H) as (t0 & b & c & rest & -> & B & C & NR).
  apply upper_close in C. subst c. unfold arg_memory, index_from. cbn [Nat.add skipn]. cbn [index_of].
  destruct (str_eqb #"]" t) eqn:E.
  - cbn [option_map Nat.add Nat.sub firstn]. apply pure_ret. auto.
  - cbn [index_of]. rewrite str_eqb_refl. cbn [option_map Nat.add Nat.sub firstn]. rewrite (modrm_other t NR). apply pure_ret. auto.
Qed.
Lemma rm_passes : forall regs tokens t, direct tokens 1 = ret (Some t) -> ~ In #"[" regs ->
  forall m, pure (fun r ds => r = None /\ ds = []) (arg_rm regs tokens 1 m).
Proof.
  intros regs tokens t H NI m. pose proof (direct_memory _ _ 1 H eq_refl m) as DM.
  destruct (direct_tokens _ _ H) as (t0 & b & c & rest & E & B & C & NR). unfold arg_rm, tok_at. rewrite E at 1. cbn [nth_error].
  rewrite ret_bind. cbv zeta. rewrite B, (index_of_none _ _ NI). cbn [str_eqb]. exact DM.
Qed.

Definition mov_first : list (Z * list arg) :=
  [(0x88, [AEb; AGb]); (0x89, [AEv; AGv]); (0x8A, [AGb; AEb]); (0x8B, [AGv; AEv]); (0x8C, [AEv; ASw]); (0x8E, [ASw; AEv]);
   (0xA0, [AReg #"AL"; AOb]); (0xA1, [AReg #"AX"; AOv])].
Definition mov_last : list (Z * list arg) :=
  match dget str_eqb i86_opcodes #"MOV" with Some rows => skipn 10 rows | None => [] end.
Lemma mov_rows : dget str_eqb i86_opcodes #"MOV" = Some (mov_first ++ (0xA2, [AOb; AReg #"AL"]) :: (0xA3, [AOv; AReg #"AX"]) :: mov_last).
Proof. vm_compute. reflexivity. Qed.
Lemma out_rows : dget str_eqb i86_opcodes #"OUT" =
  Some ([] ++ (0xE6, [AIb; AReg #"AL"]) :: (0xE7, [AIb; AReg #"AX"]) :: [(0xEE, [AReg #"DX"; AReg #"AL"]); (0xEF, [AReg #"DX"; AReg #"AX"])]).
Proof. vm_compute. reflexivity. Qed.
Lemma other_rows : forallb (fun r => str_in (fst r) [#"MOV"; #"OUT"] || forallb calm (snd r)) i86_opcodes = true.
Proof. vm_compute. reflexivity. Qed.
Definition starts (r : Z * list arg) : bool :=
  match snd r with AReg w :: _ => negb (str_eqb w #"[") | AEb :: _ | AEv :: _ => true | _ => false end.
Lemma mov_pure : forall tokens, pure good (i86_call (mov_first ++ (0xA2, [AOb; AReg #"AL"]) :: (0xA3, [AOv; AReg #"AX"]) :: mov_last) tokens).
Proof.
  intros tokens. assert (LAST : pure good (i86_call mov_last tokens)).
  { rewrite <- (app_nil_r mov_last). apply calm_pure; [vm_compute; reflexivity|apply nil_pure]. }
  apply calm_pure; [vm_compute; reflexivity|].
  destruct (Nat.lt_ge_cases (length tokens) 2) as [L|L]; [apply short_pure; [exact L|]; apply short_pure; [exact L|exact LAST]|].
  destruct (direct_ret tokens 1) as [[t|] D].
  - eapply two_pure; [left; auto|reflexivity|reflexivity|exact L|]. apply passed_rows; [exact L|]. intros k args I.
    assert (S : starts (k, args) = true).
    { assert (A : forallb starts mov_last = true) by (vm_compute; reflexivity). rewrite forallb_forall in A. apply A. exact I. }
    unfold starts in S. cbn [snd] in S. destruct args as [|[] more]; try discriminate S; eexists _, more; (split; [reflexivity|]).
    + intros m. destruct (direct_tokens _ _ D) as (t0 & b & c & rest & E & B & _). apply (reg_passes _ b); [rewrite E; reflexivity|].
      rewrite B. intros <-. discriminate S.
    + cbn [run_arg]. apply (rm_passes _ _ t D). intros X. apply str_in_In in X. discriminate.
    + cbn [run_arg]. apply (rm_passes _ _ t D). intros X. apply str_in_In in X. discriminate.
  - apply skip_pure; [intros m; cbn [run_arg]; rewrite D, ret_bind; apply pure_ret; auto|].
    apply skip_pure; [intros m; cbn [run_arg]; rewrite D, ret_bind; apply pure_ret; auto|]. exact LAST.
Qed.
Lemma out_pure : forall tokens, pure good (i86_call ([] ++ (0xE6, [AIb; AReg #"AL"]) :: (0xE7, [AIb; AReg #"AX"]) ::
  [(0xEE, [AReg #"DX"; AReg #"AL"]); (0xEF, [AReg #"DX"; AReg #"AX"])]) tokens).
Proof.
  intros tokens. cbn [app]. set (last := [(0xEE, _); _]). assert (LAST : pure good (i86_call last tokens)).
  { rewrite <- (app_nil_r last). apply calm_pure; [vm_compute; reflexivity|apply nil_pure]. }
  destruct (Nat.lt_ge_cases (length tokens) 2) as [L|L]; [apply short_pure; [exact L|]; apply short_pure; [exact L|exact LAST]|].
  destruct (nth_error tokens 1) as [t|] eqn:N; [|apply nth_error_None in N; unfold str in *; lia].
  destruct (str_in (upper t) (all_regs ++ [#"["; #"]"])) eqn:R.
  - assert (SK : forall m, pure (fun r ds => r = None /\ ds = []) (run_arg AIb tokens 1 m)).
    { intros m. cbn [run_arg]. unfold tok_at. rewrite N, ret_bind, R. apply pure_ret. auto. }
    apply skip_pure; [exact SK|]. apply skip_pure; [exact SK|exact LAST].
  - eapply two_pure; [right; auto|reflexivity|reflexivity|exact L|].
    assert (ND : upper t <> #"DX") by (intros E; rewrite E in R; discriminate).
    apply passed_cons; [apply (reg_passes _ t); assumption|exact L|]. apply passed_cons; [apply (reg_passes _ t); assumption|exact L|].
    apply pure_ret. auto.
Qed.
Lemma i86_pure : forall m rows tokens, dget str_eqb i86_opcodes m = Some rows -> pure good (i86_call rows tokens).
Proof.
  intros m rows tokens D. destruct (str_eqb m #"MOV") eqn:E1; [apply str_eqb_eq in E1; subst; rewrite mov_rows in D; injection D as <-; apply mov_pure|].
  destruct (str_eqb m #"OUT") eqn:E2; [apply str_eqb_eq in E2; subst; rewrite out_rows in D; injection D as <-; apply out_pure|].
  apply dget_rows in D. pose proof other_rows as O. rewrite forallb_forall in O. apply O in D. cbn [fst snd str_in existsb] in D.
  rewrite E1, E2 in D. cbn [orb] in D. rewrite <- (app_nil_r rows). apply calm_pure; [exact D|apply nil_pure].
Qed.
Lemma i86_fits : forall e, fits (i8086 e) /\ handlers neat (i8086 e).
Proof.
  intros e. assert (H : handlers (fun f => well_behaved f /\ neat f) (i8086 e)).
  { intros k f D. rewrite i86_get in D. destruct (dget str_eqb i86_opcodes k) as [rows|] eqn:X; [|discriminate]. injection D as <-.
    apply good_handler. intros tokens. eapply i86_pure; eauto. }
  split; [split; [|split]|].
  - intros k f D. apply (H k f D).
  - intros k b D. rewrite i86_get in D. destruct (dget str_eqb i86_opcodes k); discriminate.
  - apply bare_mk.
  - intros k f D. apply (H k f D).
Qed.
