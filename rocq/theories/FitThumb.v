(** The Thumb handlers are well-behaved. *)
From Coq Require Import Lia.
From Verif Require Import Py PyFacts Utils Tokenizer State Assembler Instr Thumb.
From Verif Require Import SpecUtils SpecExec SpecLink SpecCpu UtilsFacts ParseFacts Events ExecFacts CpuFacts WordFacts FitFacts FitInstr.
Local Open Scope Z_scope.

Lemma half_pure : forall base fs, pure (builds 2) (th_build base fs).
Proof.
  intros base fs. unfold th_build. pure_step. apply pure_ret. split; [reflexivity|].
  intros x E. injection E as <-. unfold pack_bits_le16u in *. destruct (pack_bits base fs); [|discriminate]. cbn [rbind] in *.
  packed; (split; [eapply struct_pack_byte; eassumption|out_len; reflexivity]).
Qed.
Lemma low_quiet : quiet_fn (Some low_reg).
Proof.
  intros t. unfold low_reg. destruct (str_in (lower t) high_regs); [apply pure_araise|].
  destruct (index_of (lower t) low_regs); [apply pure_ret; reflexivity|apply pure_araise].
Qed.
Lemma high_quiet : quiet_fn (Some high_reg).
Proof.
  intros t. unfold high_reg. destruct (index_of (lower t) high_regs_aliases); [apply pure_ret; reflexivity|].
  destruct (str_in (lower t) low_regs); [apply pure_araise|].
  destruct (index_of (lower t) high_regs_true); [apply pure_ret; reflexivity|apply pure_araise].
Qed.
Lemma imm_quiet : quiet_fn (Some th_imm).
Proof. intros t. unfold th_imm. pure_step. pure_step; [apply pure_ret; reflexivity|apply pure_araise]. Qed.

Lemma poil_half : forall p d sg, sound_ref d -> whole 2 d ->
  pure (fun _ ds => at_most (whole 2) ds) (parse_integer_or_label p d sg).
Proof.
  intros p d sg S W. eapply pure_weaken; [apply at_most_poil; exact S|].
  intros v ds [->|(d' & -> & ->)]; [left; reflexivity|right; exists d; split; [reflexivity|exact W]].
Qed.
Lemma offset_one : forall hi lo, 0 <= lo <= hi -> one_fn (whole 2) (th_offset hi lo).
Proof.
  intros hi lo L t. unfold th_offset.
  apply pure_pc with (k := fun z => parse_integer_or_label thumb_p
    (LabelData t 2 (hi - lo + 1 + 1) (z + 4) 0 2 (Some (hi, lo)) (Some (fun x => Z.shiftr x 1)) None) false).
  intros z. apply poil_half; [sound; intros b E; injection E as <-; cbn; lia|split; reflexivity].
Qed.
Lemma word8_one : one_fn (whole 2) th_word8.
Proof.
  intros t. unfold th_word8.
  apply pure_pc with (k := fun z => parse_integer_or_label thumb_p
    (LabelData (skipn 1 t) 2 8 (Z.land (z + 4) (Z.lnot 2)) 0 4 (Some (7, 0)) (Some (fun x => Z.shiftr x 2)) None) false).
  intros z. apply poil_half; [sound; intros b E; injection E as <-; cbn; lia|split; reflexivity].
Qed.

Definition refers (o : opnd) : bool := match o with OWord8 | OOffset _ _ => true | _ => false end.
Definition orderly (o : opnd) : bool := match o with OOffset hi lo => (0 <=? lo) && (lo <=? hi) | _ => true end.
Lemma opnd_quiet : forall o, refers o = false -> quiet_fn (op_value o).
Proof.
  intros [] R; try discriminate R; cbn [op_value]; [exact low_quiet|exact high_quiet|exact I|exact I|exact imm_quiet| |exact I].
  intros t. destruct (py_int 10 t); [apply pure_ret; reflexivity|apply pure_praise].
Qed.
Fixpoint few (ops : list opnd) : bool :=
  match ops with
  | [] => true
  | o :: t => orderly o && if refers o then negb (existsb refers t) else few t
  end.
Lemma all_quiet : forall ops, existsb refers ops = false -> Forall quiet_fn (map op_value ops).
Proof.
  induction ops as [|o ops IH]; intros H; cbn [map]; constructor; cbn [existsb] in H; apply orb_false_iff in H; destruct H as [H1 H2].
  - apply opnd_quiet. exact H1.
  - apply IH. exact H2.
Qed.
Lemma few_ok : forall ops tokens, few ops = true -> pure (fun _ ds => at_most (whole 2) ds) (apply_operands tokens (map op_value ops)).
Proof.
  induction ops as [|o ops IH]; intros tokens H.
  - apply pure_at_most. apply pure_ret. reflexivity.
  - cbn [few] in H. apply andb_prop in H. destruct H as [OR H]. cbn [map]. destruct (refers o) eqn:R.
    + apply negb_true_iff in H. apply all_quiet in H.
      destruct o; try discriminate R; cbn [op_value].
      * apply (pure_apply_one _ (whole 2) [] th_word8); [constructor|exact word8_one|exact H].
      * apply (pure_apply_one _ (whole 2) [] (th_offset hi lo)); [constructor| |exact H]. apply offset_one. cbn [orderly] in OR. lia.
    + pose proof (opnd_quiet _ R) as Q. destruct (op_value o) as [f|]; cbn [apply_operands].
      * destruct tokens as [|t tokens]; [apply pure_praise|].
        eapply pure_bind; [apply Q|]. intros v ds ->. cbn [app].
        eapply pure_bind; [apply IH; exact H|]. intros vs ds O. apply pure_ret. rewrite app_nil_r. exact O.
      * apply IH. exact H.
Qed.

Lemma rows_ok : forall rs tokens, forallb (fun r => few (r_ops r)) rs = true -> pure ok_out (run_rows rs tokens).
Proof.
  induction rs as [|r rs IH]; intros tokens H; cbn [run_rows].
  - apply pure_ret. intros x E. discriminate.
  - cbn [forallb] in H. apply andb_prop in H. destruct H as [H1 H2].
    destruct (imatch tokens 1 (map op_pattern (r_ops r))); [|apply IH; exact H2].
    unfold run_row, iapply. apply pure_word with (n := 2); [apply few_ok; exact H1|].
    intros vs. destruct (r_fields r); [apply half_pure|apply pure_praise].
Qed.

Lemma two_bytes : forall b (E : pack_le16u [Some 0xF000; Some 0xF800] = Ok b), b = [0; 0xF0; 0; 0xF8].
Proof. intros b E. vm_compute in E. injection E as <-. reflexivity. Qed.
Lemma half_pack : forall base fs b, pack_bits_le16u base fs = Ok b -> Forall is_byte b /\ zlen b = 2.
Proof.
  intros base fs b H. unfold pack_bits_le16u in H. destruct (pack_bits base fs); [|discriminate]. cbn [rbind] in *.
  packed; (split; [eapply struct_pack_byte; eassumption|out_len; reflexivity]).
Qed.

Lemma label_pair_ok : forall offset,
  pure ok_out (let! s := get in
      add_label_translation
        (LabelData offset 2 23 (pc s + 4) 0 2 (Some (10, 0)) (Some (fun x => Z.shiftr x 12)) None) ;;
      add_label_translation
        (LabelData offset 2 23 (pc s + 4) 2 2 (Some (10, 0)) (Some (fun x => Z.land (Z.shiftr x 1) 0x7FF)) None) ;;
      let! b := lift (pack_le16u [Some 0xF000; Some 0xF800]) in ret (Some b)).
Proof.
  intros offset. apply pure_pc with (k := fun z =>
      add_label_translation
        (LabelData offset 2 23 (z + 4) 0 2 (Some (10, 0)) (Some (fun x => Z.shiftr x 12)) None) ;;
      add_label_translation
        (LabelData offset 2 23 (z + 4) 2 2 (Some (10, 0)) (Some (fun x => Z.land (Z.shiftr x 1) 0x7FF)) None) ;;
      let! b := lift (pack_le16u [Some 0xF000; Some 0xF800]) in ret (Some b)).
  intros z. eapply pure_bind; [apply pure_ref; sound; intros b E; injection E as <-; cbn; lia|]. intros _ ds ->.
  eapply pure_bind; [apply pure_ref; sound; intros b E; injection E as <-; cbn; lia|]. intros _ ds ->.
  eapply pure_bind; [apply pure_lift|]. intros b ds [E ->]. apply two_bytes in E. subst b.
  apply pure_ret. intros x E. injection E as <-. split; [repeat constructor; lia|].
  split; [repeat constructor; cbn; lia|]. repeat constructor; cbn; lia.
Qed.

Lemma bl_ok : forall tokens, pure ok_out (thumb_bl tokens).
Proof.
  intros tokens. unfold thumb_bl. destruct (imatch tokens 1 [PFun th_label]); [|apply pure_ret; intros x E; discriminate].
  eapply pure_bind; [apply pure_tok|]. intros t ds ->. eapply pure_bind; [apply pure_parse|]. intros v ds [-> _].
  cbv zeta. destruct v as [v|]; [|apply label_pair_ok]. destruct (v =? 0); [apply label_pair_ok|].
  eapply pure_bind; [apply pure_lift|]. intros b0 ds [E0 ->]. eapply pure_bind; [apply pure_lift|]. intros b1 ds [E1 ->].
  apply pure_ret. intros x E. injection E as <-. apply half_pack in E0, E1. destruct E0 as [B0 L0], E1 as [B1 L1].
  split; [apply Forall_app; split; assumption|apply placed_nil].
Qed.

Lemma rlist_quiet : forall tokens r, pure (fun _ ds => ds = []) (th_rlist tokens r).
Proof.
  induction tokens as [|t tokens IH]; intros r; cbn [th_rlist]; [apply pure_ret; reflexivity|].
  destruct (str_in t low_regs).
  - eapply pure_bind; [apply low_quiet|]. intros b ds ->. eapply pure_bind; [apply pure_lift|]. intros v ds [_ ->]. apply IH.
  - destruct (existsb (Ascii.eqb "-") t); [|apply pure_araise].
    destruct (split_minus [] t) as [|a [|b [|c l]]]; try apply pure_praise.
    destruct (negb (str_in (lower a) low_regs)); [apply pure_araise|].
    destruct (negb (str_in (lower b) low_regs)); [apply pure_araise|].
    eapply pure_bind; [apply low_quiet|]. intros x ds ->. eapply pure_bind; [apply low_quiet|]. intros y ds ->.
    destruct (y <? x); [apply pure_araise|].
    eapply pure_bind; [apply pure_lift|]. intros v ds [_ ->]. apply IH.
Qed.
Lemma push_ok : forall tokens, pure ok_out (thumb_push tokens).
Proof.
  intros tokens. unfold thumb_push. destruct (Nat.ltb (length tokens) 4); [apply pure_ret; intros x E; discriminate|].
  match goal with |- pure _ (if ?x then _ else _) => destruct x end; [apply pure_ret; intros x E; discriminate|].
  cbv zeta. apply pure_word with (n := 2); [apply pure_at_most; apply rlist_quiet|]. intros v. apply half_pure.
Qed.

Lemma thumb_lookup : forall e k, dget str_eqb (c_instructions (thumb e)) k =
  match dget str_eqb thumb_rows k with
  | Some rs => Some (OFun (run_rows rs))
  | None => dget str_eqb [ (#"BL", OFun thumb_bl); (#"PUSH", OFun thumb_push) ] k
  end.
Proof.
  intros e k. unfold thumb, mk_cfg. cbn [c_instructions].
  rewrite register_all_id; [|reflexivity|vm_compute; reflexivity|vm_compute; reflexivity].
  unfold thumb_ops. rewrite dget_app. rewrite dget_map. destruct (dget str_eqb thumb_rows k); reflexivity.
Qed.
Lemma thumb_pure : forall e k f, dget str_eqb (c_instructions (thumb e)) k = Some (OFun f) -> forall tokens, pure ok_out (f tokens).
Proof.
  intros e k f D tokens. rewrite thumb_lookup in D.
  destruct (dget str_eqb thumb_rows k) as [rs|] eqn:E.
  - injection D as <-. apply rows_ok. apply (dget_In str_eqb str_eqb_eq) in E.
    assert (X : forallb (fun '(_, rs) => forallb (fun r => few (r_ops r)) rs) thumb_rows = true) by (vm_compute; reflexivity).
    rewrite forallb_forall in X. exact (X _ E).
  - cbn [dget] in D. destruct (str_eqb k #"BL"); [injection D as <-; apply bl_ok|].
    destruct (str_eqb k #"PUSH"); [injection D as <-; apply push_ok|discriminate].
Qed.
Lemma thumb_fits : forall e, fits (thumb e) /\ handlers neat (thumb e).
Proof.
  intros e. split; [split; [|split]|].
  - intros k f D. apply pure_handler. eapply thumb_pure; eauto.
  - intros k b D. rewrite thumb_lookup in D. destruct (dget str_eqb thumb_rows k); [discriminate|].
    cbn [dget] in D. destruct (str_eqb k #"BL"); [discriminate|]. destruct (str_eqb k #"PUSH"); discriminate.
  - apply bare_mk.
  - intros k f D. apply pure_handler. eapply thumb_pure; eauto.
Qed.
