(** Proofs about the Thumb model. *)
From Coq Require Import Lia Permutation.
From Verif Require Import Py PyFacts Utils Tokenizer State Assembler SpecUtils UtilsFacts SpecParse ParseFacts SpecSubst
  SpecExec SpecCpu Instr CpuFacts WordFacts Thumb SpecThumb.
Local Open Scope Z_scope.

(** ** Registers *)

Lemma low_in : forall x, In x low_regs <-> exists n, In (x, n) low_names.
Proof.
  intros x. split.
  - intros H. cbn in H. repeat (destruct H as [<-|H]; [eexists; cbn; tauto|]). destruct H.
  - intros (n & H). cbn in H. repeat (destruct H as [H|H]; [injection H as <- <-; cbn; tauto|]). destruct H.
Qed.
Lemma high_in : forall x, In x high_regs <-> exists n, In (x, n) high_names.
Proof.
  intros x. split.
  - intros H. cbn in H. repeat (destruct H as [<-|H]; [eexists; cbn; tauto|]). destruct H.
  - intros (n & H). cbn in H. repeat (destruct H as [H|H]; [injection H as <- <-; cbn; tauto|]). destruct H.
Qed.
Lemma pc_in : forall x, In x pc_regs <-> In (x, 15) high_names.
Proof.
  intros x. split.
  - intros H. cbn in H. repeat (destruct H as [<-|H]; [cbn; tauto|]). destruct H.
  - intros H. cbn in H. repeat (destruct H as [H|H]; [first [discriminate H | injection H as <-; cbn; tauto]|]). destruct H.
Qed.
Lemma sp_in : forall x, In x sp_regs <-> In (x, 13) high_names.
Proof.
  intros x. split.
  - intros H. cbn in H. repeat (destruct H as [<-|H]; [cbn; tauto|]). destruct H.
  - intros H. cbn in H. repeat (destruct H as [H|H]; [first [discriminate H | injection H as <-; cbn; tauto]|]). destruct H.
Qed.
Lemma low_high : forall x n m, In (x, n) low_names -> In (x, m) high_names -> False.
Proof.
  intros x n m H K. cbn in H. repeat (destruct H as [H|H]; [injection H as <- <-; cbn in K;
    repeat (destruct K as [K|K]; [discriminate K|]); destruct K|]). destruct H.
Qed.
Lemma low_range : forall x n, In (x, n) low_names -> 0 <= n < 8.
Proof. intros x n H. cbn in H. repeat (destruct H as [H|H]; [injection H as <- <-; lia|]). destruct H. Qed.
Lemma high_range : forall x n, In (x, n) high_names -> 8 <= n < 16.
Proof. intros x n H. cbn in H. repeat (destruct H as [H|H]; [injection H as <- <-; lia|]). destruct H. Qed.

Lemma low_run : forall t s, In (lower t) low_regs -> exists n, low_reg t s = (s, Ok n) /\ In (lower t, n) low_names.
Proof.
  intros t s H. unfold low_reg. set (x := lower t) in *. clearbody x. cbn in H.
  repeat (destruct H as [<-|H]; [eexists; split; [reflexivity|cbn; tauto]|]). destruct H.
Qed.
Lemma high_run : forall t s, In (lower t) high_regs -> exists n, high_reg t s = (s, Ok (n - 8)) /\ In (lower t, n) high_names.
Proof.
  intros t s H. unfold high_reg. set (x := lower t) in *. clearbody x. cbn in H.
  destruct H as [<-|H]; [exists 8; split; [reflexivity|cbn; tauto]|].
  destruct H as [<-|H]; [exists 9; split; [reflexivity|cbn; tauto]|].
  destruct H as [<-|H]; [exists 10; split; [reflexivity|cbn; tauto]|].
  destruct H as [<-|H]; [exists 11; split; [reflexivity|cbn; tauto]|].
  destruct H as [<-|H]; [exists 12; split; [reflexivity|cbn; tauto]|].
  destruct H as [<-|H]; [exists 13; split; [reflexivity|cbn; tauto]|].
  destruct H as [<-|H]; [exists 14; split; [reflexivity|cbn; tauto]|].
  destruct H as [<-|H]; [exists 15; split; [reflexivity|cbn; tauto]|].
  destruct H as [<-|H]; [exists 11; split; [reflexivity|cbn; tauto]|].
  destruct H as [<-|H]; [exists 12; split; [reflexivity|cbn; tauto]|].
  destruct H as [<-|H]; [exists 13; split; [reflexivity|cbn; tauto]|].
  destruct H as [<-|H]; [exists 14; split; [reflexivity|cbn; tauto]|].
  destruct H as [<-|H]; [exists 15; split; [reflexivity|cbn; tauto]|]. destruct H.
Qed.
Lemma low_fun : forall x n m, In (x, n) low_names -> In (x, m) low_names -> n = m.
Proof.
  intros x n m H K. cbn in H. repeat (destruct H as [H|H]; [injection H as <- <-; cbn in K;
    repeat (destruct K as [K|K]; [first [discriminate K | injection K; auto]|]); destruct K|]). destruct H.
Qed.
Lemma high_fun : forall x n m, In (x, n) high_names -> In (x, m) high_names -> n = m.
Proof.
  intros x n m H K. cbn in H. repeat (destruct H as [H|H]; [injection H as <- <-; cbn in K;
    repeat (destruct K as [K|K]; [first [discriminate K | injection K; auto]|]); destruct K|]). destruct H.
Qed.

(** ** Operands *)

Definition trans (k : kind) : opnd :=
  match k with
  | Rl _ => OLow | Rh _ => OHigh | Rpc => OPc | Rsp => OSp | Imm _ _ _ => OImm | Word8 => OWord8
  | Dest n => OOffset (n - 1) 0 | Comment => OInterrupt | Lit s => OLit s
  end.
(** Kinds as they occur in the manual. *)
Definition sensible (k : kind) : bool :=
  match k with
  | Rl lo | Rh lo => 0 <=? lo
  | Imm n lo k => (1 <=? n) && (0 <=? lo) && (0 <=? k)
  | Dest n => (1 <=? n)
  | Lit s => str_eqb s #"[" || str_eqb s #"]"
  | _ => true
  end.

Lemma match_immediate : forall t, imatch1 (PFun th_immediate) t = true <-> exists r, t = hash r /\ r <> [].
Proof.
  intros t. cbn [imatch1]. unfold th_immediate. split.
  - intros H. apply andb_prop in H. destruct H as [L S]. destruct t as [|c [|c' t]]; try discriminate L.
    exists (c' :: t). split; [|discriminate]. unfold hash. f_equal.
    cbn [starts_with] in S. change #"#" with ["#"%char] in S. cbn [starts_with] in S. rewrite andb_true_r in S.
    apply Ascii.eqb_eq in S. congruence.
  - intros (r & -> & N). destruct r as [|c r]; [congruence|]. reflexivity.
Qed.
Lemma match_label : forall t, imatch1 (PFun th_label) t = true <-> exists c r, t = c :: r /\ c <> "#"%char.
Proof.
  intros t. cbn [imatch1]. unfold th_label. change #"#" with ["#"%char]. destruct t as [|c r].
  - split; [discriminate|]. intros (c & r & E & _). discriminate.
  - cbn [str_eqb negb andb]. split.
    + intros H. exists c, r. split; [reflexivity|]. intros ->. discriminate H.
    + intros (c' & r' & E & N). injection E as <- <-. apply negb_true_iff. cbn [starts_with].
      rewrite andb_true_r. apply Ascii.eqb_neq. congruence.
Qed.
Lemma match_bracket : forall s t, sensible (Lit s) = true -> imatch1 (PStr s) t = true <-> t = s.
Proof.
  intros s t H. cbn [sensible] in H. apply orb_prop in H. destruct H as [H|H]; apply str_eqb_eq in H; subst s.
  - apply (match_mark "["%char); [right; reflexivity|reflexivity].
  - apply (match_mark "]"%char); [right; reflexivity|reflexivity].
Qed.

Lemma looks_iff : forall k t, sensible k = true -> imatch1 (op_pattern (trans k)) t = true <-> looks k t.
Proof.
  intros k t S. destruct k as [lo|lo| | |n lo k| |n| |s]; cbn [trans op_pattern].
  - rewrite match_tuple by reflexivity. rewrite low_in. split.
    + intros (n & H). econstructor. exact H.
    + intros H. inversion H; subst. eauto.
  - rewrite match_tuple by reflexivity. rewrite high_in. split.
    + intros (n & H). econstructor. exact H.
    + intros H. inversion H; subst. eauto.
  - rewrite match_tuple by reflexivity. rewrite pc_in. split; [intros H; constructor; exact H|intros H; inversion H; assumption].
  - rewrite match_tuple by reflexivity. rewrite sp_in. split; [intros H; constructor; exact H|intros H; inversion H; assumption].
  - rewrite match_immediate. split; [intros (r & -> & N); constructor; exact N|intros H; inversion H; subst; eauto].
  - rewrite match_immediate. split; [intros (r & -> & N); constructor; exact N|intros H; inversion H; subst; eauto].
  - rewrite match_label. split; [intros (c & r & -> & N); constructor; exact N|intros H; inversion H; subst; eauto].
  - cbn [imatch1]. unfold th_interrupt. split.
    + intros H. destruct (digits_numeral _ H) as (v & V). econstructor. exact V.
    + intros H. inversion H; subst. eapply numeral_digits. eassumption.
  - rewrite match_bracket by exact S. split; [intros ->; constructor|intros H; inversion H; reflexivity].
Qed.

(** The place of an operand in the instruction, and what its value is shifted by. *)
Definition fld (k : kind) : option ((Z * Z) * Z) :=
  match k with
  | Rl lo | Rh lo => Some ((lo + 2, lo), 0)
  | Imm n lo k => Some ((lo + n - 1, lo), k)
  | Word8 => Some ((7, 0), 2)
  | Dest n => Some ((n - 1, 0), 1)
  | Comment => Some ((7, 0), 0)
  | Rpc | Rsp | Lit _ => None
  end.

(** The value of an operand before it is placed. *)
Inductive raw (s : st) : kind -> str -> Z -> list labeldata -> Prop :=
| raw_low lo t n : In (lower t, n) low_names -> raw s (Rl lo) t n []
| raw_high lo t n : In (lower t, n) high_names -> raw s (Rh lo) t (n - 8) []
| raw_imm n lo k r v : r <> [] -> num thumb_cfg s r 8 false v -> raw s (Imm n lo k) (hash r) v []
| raw_word r v : r <> [] -> num thumb_cfg s r 8 true v -> raw s Word8 (hash r) v []
| raw_word_ref r : r <> [] -> not_num thumb_cfg s r 8 true -> raw s Word8 (hash r) 0 [half_ref r 8 (load_base s) 4 8 2]
| raw_dest n c r v : c <> "#"%char -> num thumb_cfg s (c :: r) (n + 1) true v -> raw s (Dest n) (c :: r) v []
| raw_dest_ref n c r : c <> "#"%char -> not_num thumb_cfg s (c :: r) (n + 1) true ->
    raw s (Dest n) (c :: r) 0 [half_ref (c :: r) (n + 1) (pc s + 4) 2 n 1]
| raw_comment t v : numeral 10 t v -> raw s Comment t v [].

Lemma land_base : forall z, 0 <= z -> Z.land (z + 4) (-3) <> 0.
Proof.
  intros z H E. assert (X : (z + 4) = Z.land (z + 4) 2).
  { assert (Y : Z.land (z + 4) (Z.lor (-3) 2) = z + 4) by (change (Z.lor (-3) 2) with (-1); apply Z.land_m1_r).
    rewrite Z.land_lor_distr_r, E, Z.lor_0_l in Y. auto. }
  assert (Z.land (z + 4) 2 <= 2).
  { rewrite Z.land_comm. destruct (Z.eq_dec (Z.land 2 (z + 4)) 0) as [->|N]; [lia|].
    assert (0 <= Z.land 2 (z + 4)) by (apply Z.land_nonneg; lia).
    assert (Z.log2 (Z.land 2 (z + 4)) <= 1).
    { etransitivity; [apply Z.log2_land; lia|]. change (Z.log2 2) with 1. lia. }
    assert (Z.land 2 (z + 4) < 2 ^ 2) by (apply Z.log2_lt_pow2; lia).
    destruct (Z.eq_dec (Z.land 2 (z + 4)) 3) as [Q|]; [|change (2 ^ 2) with 4 in *; lia].
    assert (T : Z.testbit (Z.land 2 (z + 4)) 0 = true) by (rewrite Q; reflexivity).
    rewrite Z.land_spec in T. discriminate T. }
  lia.
Qed.

Ltac nz := match goal with |- context [negb (?a =? 0)] => replace (negb (a =? 0)) with true by (symmetry; apply negb_true_iff, Z.eqb_neq; auto; lia) end.

Lemma value_ok : forall k t s f, sensible k = true -> 0 <= pc s -> op_value (trans k) = Some f -> forall s' v,
  looks k t /\ f t s = (s', Ok v) <-> exists ds, raw s k t v ds /\ s' = referring s ds.
Proof.
  intros k t s f S PC OV s' v. destruct k as [lo|lo| | |n lo k| |n| |x]; try discriminate OV; injection OV as <-.
  - split.
    + intros [L R]. inversion L; subst. destruct (low_run t s) as (m & E & I); [apply low_in; eauto|]. rewrite E in R. injection R as <- <-.
      exists []. split; [constructor; exact I|reflexivity].
    + intros (ds & R & ->). inversion R; subst. split; [econstructor; eassumption|].
      destruct (low_run t s) as (m & E & I); [apply low_in; eauto|]. rewrite E. cbn [referring].
      rewrite (low_fun (lower t) v m); auto.
  - split.
    + intros [L R]. inversion L; subst. destruct (high_run t s) as (m & E & I); [apply high_in; eauto|]. rewrite E in R. injection R as <- <-.
      exists []. split; [constructor; exact I|reflexivity].
    + intros (ds & R & ->). inversion R; subst. split; [econstructor; eassumption|].
      destruct (high_run t s) as (m & E & I); [apply high_in; eauto|]. rewrite E. cbn [referring].
      rewrite (high_fun (lower t) n m); auto.
  - unfold th_imm. split.
    + intros [L R]. inversion L as [| | | |? ? ? r NE| | | |]; subst. cbn [hash skipn] in R. unfold m_parse_integer, bind in R.
      destruct (parse_integer thumb_p (labels s) r 8 false) as [[u|]|] eqn:E; try discriminate R. injection R as <- <-.
      exists []. split; [constructor; [exact NE|exact E]|reflexivity].
    + intros (ds & R & ->). inversion R; subst. split; [constructor; assumption|]. cbn [hash skipn]. unfold m_parse_integer, bind.
      match goal with H : num _ _ _ _ _ _ |- _ => unfold num in H; change thumb_cfg with thumb_p in H; rewrite H end. reflexivity.
  - unfold th_word8. unfold bind at 1. unfold get. rewrite poil_eq.
    cbn [ld_label ld_bits_size ld_relative orb]. change (Z.lnot 2) with (-3).
    pose proof (land_base (pc s) PC) as NZ. nz. split.
    + intros [L R]. inversion L as [| | | | |r NE| | |]; subst. cbn [hash skipn] in R.
      destruct (parse_integer thumb_p (labels s) r 8 true) as [[u|]|] eqn:E; try discriminate R; injection R as <- <-.
      * exists []. split; [constructor; [exact NE|exact E]|reflexivity].
      * exists [half_ref r 8 (load_base s) 4 8 2]. split; [apply raw_word_ref; [exact NE|exact E]|reflexivity].
    + intros (ds & R & ->). inversion R; subst; (split; [constructor; assumption|]); cbn [hash skipn];
      match goal with H : num _ _ _ _ _ _ |- _ => unfold num in H; change thumb_cfg with thumb_p in H; rewrite H
      | H : not_num _ _ _ _ _ |- _ => unfold not_num in H; change thumb_cfg with thumb_p in H; rewrite H end; reflexivity.
  - unfold th_offset. unfold bind at 1. unfold get. rewrite poil_eq.
    cbn [ld_label ld_bits_size ld_relative orb]. replace (n - 1 - 0 + 1 + 1) with (n + 1) by lia.
    assert (NZ : pc s + 4 <> 0) by lia. nz. split.
    + intros [L R]. inversion L as [| | | | | |? c r NE| |]; subst.
      destruct (parse_integer thumb_p (labels s) (c :: r) (n + 1) true) as [[u|]|] eqn:E; try discriminate R; injection R as <- <-.
      * exists []. split; [constructor; [exact NE|exact E]|reflexivity].
      * exists [half_ref (c :: r) (n + 1) (pc s + 4) 2 n 1]. split; [apply raw_dest_ref; [exact NE|exact E]|reflexivity].
    + intros (ds & R & ->). inversion R; subst; (split; [constructor; assumption|]);
      match goal with H : num _ _ _ _ _ _ |- _ => unfold num in H; change thumb_cfg with thumb_p in H; rewrite H
      | H : not_num _ _ _ _ _ |- _ => unfold not_num in H; change thumb_cfg with thumb_p in H; rewrite H end; reflexivity.
  - split.
    + intros [L R]. inversion L as [| | | | | | |? u NE|]; subst. rewrite (py_int_numeral _ _ _ NE) in R. injection R as <- <-.
      exists []. split; [constructor; exact NE|reflexivity].
    + intros (ds & R & ->). inversion R; subst. split; [econstructor; eassumption|].
      match goal with H : numeral _ _ _ |- _ => rewrite (py_int_numeral _ _ _ H) end. reflexivity.
Qed.

Lemma referring_view : forall ds s, labels (referring s ds) = labels s /\ pc (referring s ds) = pc s.
Proof.
  induction ds as [|d ds IH]; intros s; cbn [referring]; [split; reflexivity|].
  destruct (IH (set_labels_addresses s (dset Z.eqb (labels_addresses s) (zlen (assembled s) + ld_offset d) d))) as [-> ->].
  split; reflexivity.
Qed.
Lemma raw_view : forall s s2 k t v ds, labels s2 = labels s -> pc s2 = pc s -> raw s k t v ds -> raw s2 k t v ds.
Proof.
  intros s s2 k t v ds L P H. destruct H.
  - apply raw_low. assumption.
  - apply raw_high. assumption.
  - apply raw_imm; [assumption|]. unfold num in *. rewrite L. assumption.
  - apply raw_word; [assumption|]. unfold num in *. rewrite L. assumption.
  - replace (load_base s) with (load_base s2) by (unfold load_base; rewrite P; reflexivity).
    apply raw_word_ref; [assumption|]. unfold not_num in *. rewrite L. assumption.
  - apply raw_dest; [assumption|]. unfold num in *. rewrite L. assumption.
  - rewrite <- P. apply raw_dest_ref; [assumption|]. unfold not_num in *. rewrite L. assumption.
  - apply raw_comment. assumption.
Qed.

(** All operands of a form. *)
Inductive reads_all (s : st) : list kind -> list str -> list Z -> list labeldata -> Prop :=
| ra_nil : reads_all s [] [] [] []
| ra_value k ks t ts v vs ds es : fld k <> None -> raw s k t v ds -> reads_all s ks ts vs es ->
    reads_all s (k :: ks) (t :: ts) (v :: vs) (ds ++ es)
| ra_mark k ks t ts vs es : fld k = None -> looks k t -> reads_all s ks ts vs es ->
    reads_all s (k :: ks) (t :: ts) vs es.

Lemma reads_view : forall s s2 ks ts vs ds, labels s2 = labels s -> pc s2 = pc s -> reads_all s ks ts vs ds -> reads_all s2 ks ts vs ds.
Proof.
  intros s s2 ks ts vs ds L P H. induction H; [constructor|constructor; auto|constructor; auto].
  eapply raw_view; eauto.
Qed.

Lemma operands_ok : forall ks ops s s' vs, forallb sensible ks = true -> 0 <= pc s ->
  (Forall2 (fun p t => imatch1 p t = true) (map op_pattern (map trans ks)) ops /\
   apply_operands ops (map op_value (map trans ks)) s = (s', Ok vs)) <->
  exists ds, reads_all s ks ops vs ds /\ s' = referring s ds.
Proof.
  induction ks as [|k ks IH]; intros ops s s' vs SE PC.
  - cbn [map]. split.
    + intros [F A]. inversion F; subst. cbn [apply_operands] in A. injection A as <- <-. exists []. split; [constructor|reflexivity].
    + intros (ds & R & ->). inversion R; subst. split; [constructor|reflexivity].
  - cbn [forallb] in SE. apply andb_prop in SE. destruct SE as [SK SE]. cbn [map]. split.
    + intros [F A]. inversion F as [|? t ? ts M F']; subst. apply looks_iff in M; [|exact SK].
      destruct (op_value (trans k)) as [f|] eqn:OV.
      * cbn [apply_operands] in A. unfold bind at 1 in A. destruct (f t s) as [s1 [v|e]] eqn:E; [|discriminate A].
        assert (X : exists ds, raw s k t v ds /\ s1 = referring s ds) by (apply (value_ok k t s f SK PC OV); split; assumption).
        destruct X as (ds & R & ->). unfold bind at 1 in A.
        destruct (apply_operands ts (map op_value (map trans ks)) (referring s ds)) as [s2 [vs'|e]] eqn:E2; [|discriminate A].
        injection A as <- <-. destruct (referring_view ds s) as [V1 V2].
        destruct (proj1 (IH ts (referring s ds) s2 vs' SE ltac:(rewrite V2; exact PC)) (conj F' E2)) as (es & R2 & ->).
        exists (ds ++ es). split; [|symmetry; apply referring_app].
        apply ra_value; [destruct k; discriminate|exact R|eapply reads_view; [| |exact R2]; congruence].
      * cbn [apply_operands tl] in A. destruct (proj1 (IH ts s s' vs SE PC) (conj F' A)) as (es & R2 & ->).
        exists es. split; [|reflexivity]. apply ra_mark; [destruct k; try discriminate OV; reflexivity|exact M|exact R2].
    + intros (ds & R & ->). inversion R as [|? ? t ts v vs' d1 es FN RW RA|? ? t ts ? es FN LK RA]; subst.
      * destruct (op_value (trans k)) as [f|] eqn:OV; [|destruct k; try discriminate OV; exfalso; apply FN; reflexivity].
        destruct (proj2 (value_ok k t s f SK PC OV (referring s d1) v) (ex_intro _ d1 (conj RW eq_refl))) as [L E].
        destruct (referring_view d1 s) as [V1 V2].
        destruct (proj2 (IH ts (referring s d1) (referring (referring s d1) es) vs' SE ltac:(rewrite V2; exact PC))) as [F' A].
        { exists es. split; [|reflexivity]. eapply reads_view; [exact V1|exact V2|exact RA]. }
        split; [constructor; [apply looks_iff; assumption|exact F']|].
        cbn [apply_operands]. unfold bind at 1. rewrite E. unfold bind at 1. rewrite A. rewrite referring_app. reflexivity.
      * assert (OV : op_value (trans k) = None) by (destruct k; try discriminate FN; reflexivity). rewrite OV.
        destruct (proj2 (IH ts s (referring s ds) vs SE PC) (ex_intro _ ds (conj RA eq_refl))) as [F' A].
        split; [constructor; [apply looks_iff; assumption|exact F']|]. exact A.
Qed.

(** ** Fields *)

Fixpoint placed_vals (ks : list kind) (vs : list Z) : list ((Z * Z) * Z) :=
  match ks with
  | [] => []
  | k :: ks' =>
      match fld k, vs with
      | None, _ => placed_vals ks' vs
      | Some (hl, n), v :: vs' => (hl, Z.shiftr v n) :: placed_vals ks' vs'
      | Some _, [] => []
      end
  end.
Fixpoint fields_of (i : nat) (ks : list kind) : list ((Z * Z) * (nat * Z)) :=
  match ks with
  | [] => []
  | k :: ks' => match fld k with None => fields_of i ks' | Some (hl, n) => (hl, (i, n)) :: fields_of (S i) ks' end
  end.

Lemma fill_placed : forall s ks ops vs ds, reads_all s ks ops vs ds -> forall pre,
  fill_fields (fields_of (length pre) ks) (pre ++ vs) = placed_vals ks vs.
Proof.
  intros s ks ops vs ds H. induction H as [|k ks t ts v vs ds es FN R H IH|k ks t ts vs es FN L H IH]; intros pre.
  - reflexivity.
  - cbn [fields_of placed_vals]. destruct (fld k) as [[hl n]|]; [|congruence]. unfold fill_fields. cbn [map].
    rewrite app_nth2 by lia. rewrite Nat.sub_diag. cbn [nth]. f_equal.
    specialize (IH (pre ++ [v])). rewrite app_length in IH. cbn [length] in IH. rewrite Nat.add_1_r in IH.
    rewrite <- app_assoc in IH. exact IH.
  - cbn [fields_of placed_vals]. rewrite FN. apply IH.
Qed.

Lemma shift_div : forall v n, 0 <= n -> Z.shiftr v n = v / 2 ^ n.
Proof. intros. apply Z.shiftr_div_pow2. assumption. Qed.

(** A word offset of a load that is not negative. *)
Definition calm (s : st) (k : kind) (t : str) : Prop :=
  k = Word8 -> forall r v, t = hash r -> num thumb_cfg s r 8 true v -> 0 <= v.

Lemma div_small : forall v k n, 0 <= k -> v < 2 ^ (n + k) -> 0 <= n -> v / 2 ^ k < 2 ^ n.
Proof.
  intros v k n K H N. apply Z.div_lt_upper_bound; [apply Z.pow_pos_nonneg; lia|].
  rewrite <- Z.pow_add_r by lia. rewrite Z.add_comm. exact H.
Qed.

Lemma operand_raw : forall s k t w ds hl n, sensible k = true -> calm s k t -> fld k = Some (hl, n) ->
  operand s k t w ds <->
  exists v, raw s k t v ds /\ fits_field (hl, Z.shiftr v n) /\ w = field_sum [(hl, Z.shiftr v n)].
Proof.
  intros s k t w ds hl n S C F. destruct k as [lo|lo| | |m lo k| |m| |x]; cbn [fld] in F; try discriminate F; injection F as <- <-;
    cbn [sensible] in S; unfold fits_field; cbn [field_sum fold_right].
  - replace (lo + 2 - lo) with 2 by lia. split.
    + intros H. inversion H; subst. exists n. split; [constructor; assumption|].
      match goal with N : In _ low_names |- _ => pose proof (low_range _ _ N) end. rewrite shift_div by lia. rewrite Z.pow_0_r, Z.div_1_r. change (2 ^ (2 + 1)) with 8.
      change (2 ^ 2) with 4. rewrite Z.mod_small by lia. lia.
    + intros (v & R & _ & ->). inversion R; subst. match goal with N : In _ low_names |- _ => pose proof (low_range _ _ N) end. rewrite shift_div by lia.
      rewrite Z.pow_0_r, Z.div_1_r. change (2 ^ (2 + 1)) with 8. rewrite Z.mod_small by lia. rewrite Z.add_0_r. constructor. assumption.
  - replace (lo + 2 - lo) with 2 by lia. split.
    + intros H. inversion H; subst. exists (n - 8). split; [constructor; assumption|].
      match goal with N : In _ high_names |- _ => pose proof (high_range _ _ N) end. rewrite shift_div by lia. rewrite Z.pow_0_r, Z.div_1_r. change (2 ^ (2 + 1)) with 8.
      change (2 ^ 2) with 4. rewrite Z.mod_small by lia. lia.
    + intros (v & R & _ & ->). inversion R; subst. match goal with N : In _ high_names |- _ => pose proof (high_range _ _ N) end. rewrite shift_div by lia.
      rewrite Z.pow_0_r, Z.div_1_r. change (2 ^ (2 + 1)) with 8. rewrite Z.mod_small by lia. rewrite Z.add_0_r. constructor. assumption.
  - replace (lo + m - 1 - lo) with (m - 1) by lia. replace (m - 1 + 1) with m by lia. split.
    + intros H. inversion H; subst. exists v. split; [constructor; assumption|].
      match goal with N : num _ _ _ _ _ _ |- _ => pose proof (unum_range _ _ _ _ _ N ltac:(lia)) as RG end.
      rewrite shift_div by lia. assert (0 <= v / 2 ^ k) by (apply Z.div_pos; [lia|apply Z.pow_pos_nonneg; lia]).
      assert (0 < 2 ^ (m - 1)) by (apply Z.pow_pos_nonneg; lia). rewrite Z.mod_small by lia. lia.
    + intros (v & R & FF & ->). inversion R; subst.
      match goal with N : num _ _ _ _ _ _ |- _ => pose proof (unum_range _ _ _ _ _ N ltac:(lia)) as RG end.
      rewrite shift_div in * by lia. assert (0 <= v / 2 ^ k) by (apply Z.div_pos; [lia|apply Z.pow_pos_nonneg; lia]).
      rewrite Z.mod_small by lia. rewrite Z.add_0_r. constructor; [assumption|assumption|lia].
  - change (7 - 0) with 7. change (7 + 1) with 8. change (2 ^ 0) with 1. split.
    + intros H. inversion H; subst.
      * exists v. split; [constructor; assumption|].
        match goal with N : num _ _ _ _ _ _ |- _ => pose proof (num_range _ _ _ _ _ _ N ltac:(lia)) as RG end.
        rewrite shift_div by lia. change (2 ^ 2) with 4. change (2 ^ 7) with 128. change (2 ^ 8) with 256 in *.
        assert (0 <= v / 4 < 64) by (split; [apply Z.div_pos; lia|apply Z.div_lt_upper_bound; lia]).
        rewrite Z.mod_small by lia. lia.
      * exists 0. split; [constructor; assumption|]. split; [split; [discriminate|reflexivity]|reflexivity].
    + intros (v & R & FF & ->). inversion R; subst.
      * match goal with N : num _ _ _ _ _ _ |- _ => pose proof (num_range _ _ _ _ _ _ N ltac:(lia)) as RG;
          pose proof (C eq_refl _ _ eq_refl N) end.
        rewrite shift_div by lia. change (2 ^ 2) with 4. change (2 ^ 8) with 256 in *.
        assert (0 <= v / 4 < 64) by (split; [apply Z.div_pos; lia|apply Z.div_lt_upper_bound; lia]).
        rewrite Z.mod_small by lia. rewrite Z.mul_1_r, Z.add_0_r. constructor; assumption.
      * apply o_word_ref; assumption.
  - replace (m - 1 - 0) with (m - 1) by lia. replace (m - 1 + 1) with m by lia. change (2 ^ 0) with 1. split.
    + intros H. inversion H; subst.
      * exists v. split; [constructor; assumption|].
        match goal with N : num _ _ _ _ _ _ |- _ => pose proof (num_range _ _ _ _ _ _ N ltac:(lia)) as RG end.
        replace (m + 1 - 1) with m in RG by lia. rewrite Z.pow_add_r in RG by lia. change (2 ^ 1) with 2 in *.
        rewrite shift_div by lia. change (2 ^ 1) with 2.
        assert (E : 2 ^ m = 2 * 2 ^ (m - 1)) by (rewrite <- Z.pow_succ_r by lia; f_equal; lia).
        assert (- 2 ^ (m - 1) <= v / 2) by (apply Z.div_le_lower_bound; lia).
        assert (v / 2 < 2 ^ m) by (apply Z.div_lt_upper_bound; lia). lia.
      * exists 0. split; [constructor; assumption|]. rewrite Z.shiftr_0_l, Z.mod_0_l by (apply Z.pow_nonzero; lia).
        assert (0 < 2 ^ (m - 1)) by (apply Z.pow_pos_nonneg; lia). assert (0 < 2 ^ m) by (apply Z.pow_pos_nonneg; lia). lia.
    + intros (v & R & FF & ->). inversion R; subst.
      * rewrite shift_div by lia. change (2 ^ 1) with 2. rewrite Z.mul_1_r, Z.add_0_r. constructor; assumption.
      * rewrite Z.shiftr_0_l, Z.mod_0_l by (apply Z.pow_nonzero; lia). apply o_dest_ref; assumption.
  - change (7 - 0) with 7. change (7 + 1) with 8. change (2 ^ 0) with 1. change (2 ^ 7) with 128. change (2 ^ 8) with 256. split.
    + intros H. inversion H; subst. exists w. split; [constructor; assumption|].
      match goal with N : numeral _ _ _ |- _ => pose proof (numeral_nonneg 10 _ _ ltac:(lia) N) as RG end. rewrite Z.shiftr_0_r.
      rewrite Z.mod_small by lia. lia.
    + intros (v & R & FF & ->). inversion R; subst.
      match goal with N : numeral _ _ _ |- _ => pose proof (numeral_nonneg 10 _ _ ltac:(lia) N) as RG end. rewrite Z.shiftr_0_r in *.
      rewrite Z.mod_small by lia. rewrite Z.mul_1_r, Z.add_0_r. constructor; [assumption|lia].
Qed.
Lemma operand_mark : forall s k t w ds, fld k = None -> operand s k t w ds <-> looks k t /\ w = 0 /\ ds = [].
Proof.
  intros s k t w ds F. destruct k; try discriminate F; split.
  - intros H. inversion H; subst. split; [apply l_pc; assumption|split; reflexivity].
  - intros (H & -> & ->). inversion H; subst. apply o_pc; assumption.
  - intros H. inversion H; subst. split; [apply l_sp; assumption|split; reflexivity].
  - intros (H & -> & ->). inversion H; subst. apply o_sp; assumption.
  - intros H. inversion H; subst. split; [apply l_lit|split; reflexivity].
  - intros (H & -> & ->). inversion H; subst. apply o_lit.
Qed.

Lemma encodes_iff : forall s ks ops w ds, forallb sensible ks = true -> Forall2 (calm s) ks ops ->
  encodes s ks ops w ds <->
  exists vs, reads_all s ks ops vs ds /\ Forall fits_field (placed_vals ks vs) /\ w = field_sum (placed_vals ks vs).
Proof.
  intros s ks ops w ds S C. revert S w ds. induction C as [|k t ks ops C1 C IH]; intros S w ds.
  - split.
    + intros H. inversion H; subst. exists []. repeat constructor.
    + intros (vs & R & _ & ->). inversion R; subst. constructor.
  - cbn [forallb] in S. apply andb_prop in S. destruct S as [S1 S2]. specialize (IH S2). split.
    + intros H. inversion H as [|? ? ? ? v w2 d1 es O E]; subst. apply IH in E. destruct E as (vs & R & FF & ->).
      destruct (fld k) as [[hl n]|] eqn:F.
      * apply (operand_raw _ _ _ _ _ _ _ S1 C1 F) in O. destruct O as (u & RW & F1 & ->). exists (u :: vs).
        split; [constructor; [congruence|exact RW|exact R]|]. cbn [placed_vals]. rewrite F.
        split; [constructor; assumption|]. cbn [field_sum fold_right]. destruct hl as [hi lo]. fold (field_sum (placed_vals ks vs)). lia.
      * apply (operand_mark _ _ _ _ _ F) in O. destruct O as (L & -> & ->). exists vs.
        split; [apply ra_mark; assumption|]. cbn [placed_vals]. rewrite F. split; [assumption|reflexivity].
    + intros (vs & R & FF & ->). cbn [placed_vals] in *.
      inversion R as [|? ? ? ? v vs' d1 es FN RW RA|? ? ? ? ? es FN LK RA]; subst.
      * destruct (fld k) as [[[hi lo] n]|] eqn:F; [|congruence]. inversion FF as [|? ? F1 F2]; subst.
        cbn [field_sum fold_right]. fold (field_sum (placed_vals ks vs')).
        constructor; [|apply IH; eauto]. apply (operand_raw _ _ _ _ _ _ _ S1 C1 F). exists v. split; [exact RW|]. split; [exact F1|].
        cbn [field_sum fold_right]. lia.
      * rewrite FN in *. replace (field_sum (placed_vals ks vs)) with (0 + field_sum (placed_vals ks vs)) by lia.
        apply (en_cons s k ks t ops 0 _ [] ds); [apply operand_mark; auto|apply IH; eauto].
Qed.

(** ** Order of the fields *)

Lemma sum_perm : forall fs gs, Permutation fs gs -> field_sum fs = field_sum gs.
Proof.
  intros fs gs H. induction H as [|[[hi lo] v] fs gs H IH|[[h1 l1] v1] [[h2 l2] v2] fs| fs gs hs H1 IH1 H2 IH2].
  - reflexivity.
  - cbn [field_sum fold_right]. fold (field_sum fs) (field_sum gs). lia.
  - cbn [field_sum fold_right]. fold (field_sum fs). lia.
  - congruence.
Qed.

Definition field_eqb (a b : (Z * Z) * (nat * Z)) : bool :=
  let '((h1, l1), (i1, k1)) := a in let '((h2, l2), (i2, k2)) := b in
  (h1 =? h2) && (l1 =? l2) && Nat.eqb i1 i2 && (k1 =? k2).
Lemma field_eqb_eq : forall a b, field_eqb a b = true -> a = b.
Proof.
  intros [[h1 l1] [i1 k1]] [[h2 l2] [i2 k2]] H. cbn [field_eqb] in H. rewrite !andb_true_iff in H. destruct H as [[[A B] C] D].
  apply Z.eqb_eq in A, B, D. apply Nat.eqb_eq in C. congruence.
Qed.
Fixpoint remove_one (f : (Z * Z) * (nat * Z)) (l : list ((Z * Z) * (nat * Z))) : option (list ((Z * Z) * (nat * Z))) :=
  match l with
  | [] => None
  | g :: t => if field_eqb f g then Some t else option_map (cons g) (remove_one f t)
  end.
Fixpoint perm_b (fs gs : list ((Z * Z) * (nat * Z))) : bool :=
  match fs with
  | [] => match gs with [] => true | _ => false end
  | f :: t => match remove_one f gs with Some gs' => perm_b t gs' | None => false end
  end.
Lemma remove_one_perm : forall f l l', remove_one f l = Some l' -> Permutation (f :: l') l.
Proof.
  induction l as [|g l IH]; intros l' H; [discriminate|]. cbn [remove_one] in H. destruct (field_eqb f g) eqn:E.
  - apply field_eqb_eq in E. injection H as <-. subst. apply Permutation_refl.
  - destruct (remove_one f l) as [l''|]; [|discriminate]. injection H as <-.
    eapply Permutation_trans; [apply perm_swap|]. constructor. apply IH. reflexivity.
Qed.
Lemma perm_b_sound : forall fs gs, perm_b fs gs = true -> Permutation fs gs.
Proof.
  induction fs as [|f fs IH]; intros gs H; cbn [perm_b] in H.
  - destruct gs; [constructor|discriminate].
  - destruct (remove_one f gs) as [gs'|] eqn:E; [|discriminate]. eapply Permutation_trans; [|apply remove_one_perm; exact E].
    constructor. apply IH. exact H.
Qed.

Fixpoint descends (top : Z) (fs : list ((Z * Z) * (nat * Z))) : bool :=
  match fs with
  | [] => true
  | ((hi, lo), _) :: t => (0 <=? lo) && (lo <=? hi) && (hi <? top) && descends lo t
  end.
Lemma descends_fill : forall vs fs top, descends top fs = true -> descending top (fill_fields fs vs).
Proof.
  induction fs as [|[[hi lo] [i k]] fs IH]; intros top H; [exact I|]. cbn [descends] in H. rewrite !andb_true_iff in H.
  destruct H as [[[A B] C] D]. unfold fill_fields. cbn [map descending]. split; [lia|]. split; [lia|]. apply IH. exact D.
Qed.

Definition top_of (fs : list ((Z * Z) * (nat * Z))) : Z := match fs with ((hi, _), _) :: _ => hi + 1 | [] => 0 end.

Lemma half_bytes_eq : forall w, 0 <= w < 2 ^ 16 -> half_bytes w = int_bytes false 2 w.
Proof.
  intros w R. unfold half_bytes, int_bytes. cbn [le_bytes]. change (2 ^ 16) with 65536 in R.
  rewrite (Z.mod_small (w / 256)); [reflexivity|]. split; [apply Z.div_pos; lia|apply Z.div_lt_upper_bound; lia].
Qed.


Lemma build_iff : forall base fs s s1 b, 0 <= base < 2 ^ 16 -> 0 <= base + field_sum fs < 2 ^ 16 ->
  (forall top, descending top fs -> (2 ^ top | base) ->
  th_build base fs s = (s1, Ok (Some b)) <->
  Forall fits_field fs /\ s1 = s /\ b = half_bytes (base + field_sum fs)).
Proof.
  intros base fs s s1 b B R top D DV. unfold th_build, bind, lift.
  assert (ND : Forall (fun f => 0 <= f_lo f <= f_hi f) fs).
  { clear - D. revert top D. induction fs as [|[[hi lo] v] fs IH]; intros top D; [constructor|]. destruct D as (A & _ & D).
    constructor; [exact A|eapply IH; exact D]. }
  assert (EQ : Forall field_ok fs <-> Forall fits_field fs).
  { clear - ND. induction ND as [|[[hi lo] v] fs A ND IH]; [split; constructor|].
    assert (X : field_ok ((hi, lo), v) <-> fits_field ((hi, lo), v)).
    { unfold field_ok, fits_field, f_width, f_lo, f_hi, f_val in *. cbn [fst snd] in *. replace (hi - lo + 1 - 1) with (hi - lo) by lia. lia. }
    split; intros H; inversion H; subst; constructor; tauto. }
  assert (DEC : Forall field_ok fs \/ ~ Forall field_ok fs).
  { clear. induction fs as [|f fs IH]; [left; constructor|]. assert (X : field_ok f \/ ~ field_ok f) by (unfold field_ok; lia).
    destruct X, IH; [left; constructor; assumption|right; intros H1; inversion H1; auto|right; intros H1; inversion H1; auto
      |right; intros H1; inversion H1; auto]. }
  destruct DEC as [OK|BAD].
  - unfold pack_bits_le16u. rewrite (pack_sum fs top base D (proj1 EQ OK) DV). cbn [rbind].
    unfold pack_le16u. rewrite (pack_one false) by (try reflexivity; exact R).
    rewrite half_bytes_eq by exact R. split.
    + intros H. injection H as <- <-. split; [apply EQ; exact OK|]. split; reflexivity.
    + intros (_ & -> & ->). reflexivity.
  - unfold pack_bits_le16u. rewrite (pack_fails fs base); [|eapply Forall_impl; [|exact ND]; cbv beta; lia|exact BAD]. split.
    + intros H. discriminate H.
    + intros (F & _ & _). exfalso. apply BAD, EQ, F.
Qed.

(** ** Rows *)

Definition agrees_with (base : Z) (ks : list kind) (r : row) : bool :=
  match r_fields r with
  | Some fs =>
      forallb sensible ks && (r_base r =? base) && (0 <=? base) && (base + 2 ^ top_of fs <=? 2 ^ 16) &&
      perm_b fs (fields_of 0 ks) && descends (top_of fs) fs && (base mod 2 ^ top_of fs =? 0)
  | None => false
  end.

Lemma top_nonneg : forall fs, descends (top_of fs) fs = true -> 0 <= top_of fs.
Proof. intros [|[[hi lo] x] fs]; cbn [top_of descends]; [lia|]. rewrite !andb_true_iff. lia. Qed.

Lemma row_result : forall base ks r t0 ops s s1 b, r_ops r = map trans ks -> agrees_with base ks r = true -> 0 <= pc s ->
  Forall2 (calm s) ks ops ->
  (imatch (t0 :: ops) 1 (map op_pattern (r_ops r)) = true /\ run_row (t0 :: ops) r s = (s1, Ok (Some b))) <->
  exists w ds, encodes s ks ops w ds /\ s1 = referring s ds /\ b = half_bytes (base + w).
Proof.
  intros base ks r t0 ops s s1 b RO AG PC C. unfold agrees_with in AG. destruct (r_fields r) as [fs|] eqn:RF; [|discriminate].
  rewrite !andb_true_iff in AG. destruct AG as [[[[[[SE RB] B0] B1] PM] DS] DV].
  apply Z.eqb_eq in RB, DV. apply perm_b_sound in PM. pose proof (top_nonneg _ DS) as T0.
  assert (TP : 0 < 2 ^ top_of fs) by (apply Z.pow_pos_nonneg; lia).
  apply Z.leb_le in B0, B1. apply Z.mod_divide in DV; [|lia].
  rewrite imatch_cons, RO. unfold run_row, iapply. cbn [skipn]. rewrite RO, RF, RB.
  assert (BI : forall vs s s1 b, th_build base (fill_fields fs vs) s = (s1, Ok (Some b)) <->
    Forall fits_field (fill_fields fs vs) /\ s1 = s /\ b = half_bytes (base + field_sum (fill_fields fs vs))).
  { intros vs s0 s2 b0. pose proof (descends_fill vs _ _ DS) as D. pose proof (field_sum_bound _ _ T0 D) as BD.
    apply (build_iff base _ s0 s2 b0) with (top := top_of fs); [lia|lia|exact D|exact DV]. }
  assert (EQ : forall vs, Permutation (fill_fields fs vs) (fill_fields (fields_of 0 ks) vs)) by (intros vs; apply Permutation_map; exact PM).
  split.
  - intros [M R]. unfold bind in R.
    destruct (apply_operands ops (map op_value (map trans ks)) s) as [s2 [vs|e]] eqn:A; [|discriminate R].
    destruct (proj1 (operands_ok ks ops s s2 vs SE PC) (conj M A)) as (ds & RA & ->).
    apply BI in R. destruct R as (FF & -> & ->). pose proof (fill_placed _ _ _ _ _ RA []) as FP. cbn [length app] in FP.
    exists (field_sum (placed_vals ks vs)), ds. split.
    + apply (encodes_iff _ _ _ _ _ SE C). exists vs. split; [exact RA|]. split; [|reflexivity].
      rewrite <- FP. eapply Permutation_Forall; [apply EQ|exact FF].
    + split; [reflexivity|]. rewrite <- FP. rewrite (sum_perm _ _ (EQ vs)). reflexivity.
  - intros (w & ds & E & -> & ->). apply (encodes_iff _ _ _ _ _ SE C) in E. destruct E as (vs & RA & FF & ->).
    destruct (proj2 (operands_ok ks ops s (referring s ds) vs SE PC) (ex_intro _ ds (conj RA eq_refl))) as [M A].
    split; [exact M|]. unfold bind. rewrite A. apply BI. pose proof (fill_placed _ _ _ _ _ RA []) as FP. cbn [length app] in FP.
    rewrite <- FP in *. split; [eapply Permutation_Forall; [apply Permutation_sym, EQ|exact FF]|]. split; [reflexivity|].
    rewrite (sum_perm _ _ (EQ vs)). reflexivity.
Qed.

(** ** Patterns that exclude each other *)

Definition apart (a b : opnd) : bool :=
  match a, b with
  | OLow, (OHigh | OPc | OSp | OImm | OWord8) | (OHigh | OPc | OSp | OImm | OWord8), OLow => true
  | OPc, OSp | OSp, OPc => true
  | (OHigh | OPc | OSp), (OImm | OWord8) | (OImm | OWord8), (OHigh | OPc | OSp) => true
  | _, _ => false
  end.
Lemma reg_not_hash : forall t l, imatch1 (PTuple l) t = true -> forallb (fun x => negb (starts_with #"#" x)) (map upper l) = true ->
  imatch1 (PFun th_immediate) t = true -> False.
Proof.
  intros t l H N I. apply match_immediate in I. destruct I as (r & -> & _). cbn [imatch1] in H. apply existsb_exists in H.
  destruct H as (x & I & E). apply str_eqb_eq in E. rewrite forallb_forall in N.
  specialize (N (upper x) (in_map _ _ _ I)). rewrite <- E in N. unfold hash, upper in N. cbn in N. discriminate N.
Qed.
Lemma apart_ok : forall a b t, apart a b = true -> imatch1 (op_pattern a) t = true -> imatch1 (op_pattern b) t = true -> False.
Proof.
  assert (LH : forall t, imatch1 (PTuple low_regs) t = true -> imatch1 (PTuple high_regs) t = true -> False).
  { intros t A B. apply match_tuple in A; [|reflexivity]. apply match_tuple in B; [|reflexivity].
    apply low_in in A. apply high_in in B. destruct A as [n A], B as [m B]. eapply low_high; eassumption. }
  assert (PH : forall t, imatch1 (PTuple pc_regs) t = true -> imatch1 (PTuple high_regs) t = true).
  { intros t A. apply match_tuple in A; [|reflexivity]. apply match_tuple; [reflexivity|]. apply high_in. apply pc_in in A. eauto. }
  assert (SH : forall t, imatch1 (PTuple sp_regs) t = true -> imatch1 (PTuple high_regs) t = true).
  { intros t A. apply match_tuple in A; [|reflexivity]. apply match_tuple; [reflexivity|]. apply high_in. apply sp_in in A. eauto. }
  assert (PS : forall t, imatch1 (PTuple pc_regs) t = true -> imatch1 (PTuple sp_regs) t = true -> False).
  { intros t A B. apply match_tuple in A; [|reflexivity]. apply match_tuple in B; [|reflexivity].
    apply pc_in in A. apply sp_in in B. pose proof (high_fun _ _ _ A B). discriminate. }
  intros a b t AP A B.
  destruct a, b; try discriminate AP; cbn [op_pattern] in A, B;
    first [ exact (LH t A B) | exact (LH t B A) | exact (LH t A (PH t B)) | exact (LH t B (PH t A)) | exact (LH t A (SH t B))
          | exact (LH t B (SH t A)) | exact (PS t A B) | exact (PS t B A)
          | exact (reg_not_hash _ _ A eq_refl B) | exact (reg_not_hash _ _ B eq_refl A) ].
Qed.

Fixpoint clash (a b : list opnd) : bool :=
  match a, b with
  | [], [] => false
  | x :: a', y :: b' => apart x y || clash a' b'
  | _, _ => true
  end.
Lemma clash_ok : forall a b ops, clash a b = true ->
  Forall2 (fun p t => imatch1 p t = true) (map op_pattern a) ops ->
  Forall2 (fun p t => imatch1 p t = true) (map op_pattern b) ops -> False.
Proof.
  induction a as [|x a IH]; intros [|y b] ops C A B; cbn [clash map] in *; try discriminate C.
  - inversion A; subst. inversion B.
  - inversion A; subst. inversion B.
  - inversion A; subst. inversion B; subst. apply orb_prop in C. destruct C as [C|C]; [eapply apart_ok; eassumption|eapply IH; eassumption].
Qed.

Fixpoint all_clash (rs : list row) : bool :=
  match rs with
  | [] => true
  | r :: t => forallb (fun r' => clash (r_ops r) (r_ops r')) t && all_clash t
  end.
Lemma run_rows_in : forall rs t0 ops s s1 b, run_rows rs (t0 :: ops) s = (s1, Ok (Some b)) ->
  exists r, In r rs /\ imatch (t0 :: ops) 1 (map op_pattern (r_ops r)) = true /\ run_row (t0 :: ops) r s = (s1, Ok (Some b)).
Proof.
  induction rs as [|r rs IH]; intros t0 ops s s1 b H; cbn [run_rows] in H; [discriminate H|].
  destruct (imatch (t0 :: ops) 1 (map op_pattern (r_ops r))) eqn:M.
  - exists r. split; [left; reflexivity|]. split; assumption.
  - destruct (IH _ _ _ _ _ H) as (r' & I & X). exists r'. split; [right; exact I|exact X].
Qed.
Lemma run_rows_only : forall rs r t0 ops s, all_clash rs = true -> In r rs ->
  imatch (t0 :: ops) 1 (map op_pattern (r_ops r)) = true -> run_rows rs (t0 :: ops) s = run_row (t0 :: ops) r s.
Proof.
  induction rs as [|r' rs IH]; intros r t0 ops s C I M; [destruct I|]. cbn [all_clash] in C. apply andb_prop in C. destruct C as [C1 C2].
  cbn [run_rows]. destruct I as [->|I]; [rewrite M; reflexivity|].
  destruct (imatch (t0 :: ops) 1 (map op_pattern (r_ops r'))) eqn:M'; [|apply IH; assumption].
  exfalso. rewrite forallb_forall in C1. specialize (C1 _ I). apply imatch_cons in M, M'. eapply clash_ok; eassumption.
Qed.

(** ** Tables *)

Definition kind_eqb (a b : kind) : bool :=
  match a, b with
  | Rl x, Rl y | Rh x, Rh y | Dest x, Dest y => x =? y
  | Rpc, Rpc | Rsp, Rsp | Word8, Word8 | Comment, Comment => true
  | Imm a b c, Imm x y z => (a =? x) && (b =? y) && (c =? z)
  | Lit s, Lit t => str_eqb s t
  | _, _ => false
  end.
Fixpoint list_eqb {A} (f : A -> A -> bool) (a b : list A) : bool :=
  match a, b with [], [] => true | x :: a', y :: b' => f x y && list_eqb f a' b' | _, _ => false end.
Lemma list_eqb_eq : forall A (f : A -> A -> bool), (forall x y, f x y = true -> x = y) -> forall a b, list_eqb f a b = true -> a = b.
Proof.
  intros A f H. induction a as [|x a IH]; intros [|y b] E; cbn [list_eqb] in E; try discriminate; [reflexivity|].
  apply andb_prop in E. destruct E as [E1 E2]. f_equal; auto.
Qed.
Lemma kind_eqb_eq : forall a b, kind_eqb a b = true -> a = b.
Proof.
  intros [] []; cbn [kind_eqb]; intros H; try discriminate; try reflexivity; try (apply Z.eqb_eq in H; congruence).
  - rewrite !andb_true_iff in H. destruct H as [[A B] C]. apply Z.eqb_eq in A, B, C. congruence.
  - apply str_eqb_eq in H. congruence.
Qed.
Definition opnd_eqb (a b : opnd) : bool :=
  match a, b with
  | OLow, OLow | OHigh, OHigh | OPc, OPc | OSp, OSp | OImm, OImm | OWord8, OWord8 | OInterrupt, OInterrupt => true
  | OOffset a b, OOffset x y => (a =? x) && (b =? y)
  | OLit s, OLit t => str_eqb s t
  | _, _ => false
  end.
Lemma opnd_eqb_eq : forall a b, opnd_eqb a b = true -> a = b.
Proof.
  intros [] []; cbn [opnd_eqb]; intros H; try discriminate; try reflexivity.
  - rewrite !andb_true_iff in H. destruct H as [A B]. apply Z.eqb_eq in A, B. congruence.
  - apply str_eqb_eq in H. congruence.
Qed.
Definition ops_eqb := list_eqb opnd_eqb.
Definition odd_form (m : str) (ks : list kind) : bool :=
  existsb (fun '(n, js) => str_eqb m n && list_eqb kind_eqb ks js) (deviating ++ refused).
Definition rows_of (m : str) : list row := match dget str_eqb thumb_rows m with Some rs => rs | None => [] end.

(** The rows of a mnemonic exclude each other. *)
Definition table1 : bool := forallb (fun '(m, rs) => all_clash rs) thumb_rows.
(** Every regular form of the manual has an agreeing row. *)
Definition table2 : bool := forallb (fun '(m, (base, ks)) => odd_form m ks ||
  existsb (fun r => ops_eqb (r_ops r) (map trans ks) && agrees_with base ks r) (rows_of m)) manual.
(** Every row is that of a regular form, or has the operands of an odd one. *)
Definition table3 : bool := forallb (fun '(m, rs) => forallb (fun r =>
    existsb (fun '(n, (base, ks)) => str_eqb m n && ops_eqb (r_ops r) (map trans ks) &&
               (odd_form m ks || agrees_with base ks r)) manual) rs) thumb_rows.
(** No row accepts the operands of a refused form, unless it fails. *)
Definition table4 : bool := forallb (fun '(m, ks) => forallb (fun r =>
    clash (map trans ks) (r_ops r) || match r_fields r with None => true | Some _ => false end) (rows_of m) &&
    forallb sensible ks && match dget str_eqb thumb_rows m with Some _ => true | None => false end) refused.
(** Where word offsets occur. *)
Definition is_load (ks : list kind) : bool :=
  match ks with
  | [Rl _; Lit l; Rpc; Word8; Lit r] | [Rl _; Lit l; Rsp; Word8; Lit r] => str_eqb l #"[" && str_eqb r #"]"
  | _ => false
  end.
Definition table5 : bool := forallb (fun '(m, (base, ks)) =>
    (is_load ks || forallb (fun k => negb (kind_eqb k Word8)) ks) && forallb sensible ks) manual.
Lemma tables_ok : table1 && table2 && table3 && table4 && table5 = true.
Proof. vm_compute. reflexivity. Qed.

Lemma is_load_ok : forall ks, is_load ks = true -> exists lo a, (a = Rpc \/ a = Rsp) /\ ks = [Rl lo; Lit #"["; a; Word8; Lit #"]"].
Proof.
  intros ks H. unfold is_load in H.
  repeat match type of H with
  | (match ?x with _ => _ end) = true => destruct x; try discriminate H
  end; apply andb_prop in H; destruct H as [H1 H2]; apply str_eqb_eq in H1, H2; subst; eauto.
Qed.

Lemma encodes_looks : forall s ks ops w ds, encodes s ks ops w ds -> Forall2 looks ks ops.
Proof.
  intros s ks ops w ds H. induction H as [|k ks t ts v w ds es O E IH]; [constructor|]. constructor; [|exact IH].
  destruct O; try (econstructor; eassumption).
Qed.

Lemma sensible_manual : forall m base ks, In (m, (base, ks)) manual -> forallb sensible ks = true.
Proof.
  intros m base ks I. pose proof tables_ok as T. apply andb_prop in T. destruct T as [_ T]. unfold table5 in T.
  rewrite forallb_forall in T. apply T in I. apply andb_prop in I. apply I.
Qed.
Lemma calm_manual : forall m base ks s ops, In (m, (base, ks)) manual -> Forall2 looks ks ops -> ~ odd_word s ops ->
  Forall2 (calm s) ks ops.
Proof.
  intros m base ks s ops I L N. pose proof tables_ok as T. apply andb_prop in T. destruct T as [_ T]. unfold table5 in T.
  rewrite forallb_forall in T. apply T in I. apply andb_prop in I. destruct I as [I _]. apply orb_prop in I. destruct I as [I|I].
  - apply is_load_ok in I. destruct I as (lo & a & A & ->).
    inversion L as [|? t1 ? ts1 L1 L']; subst. inversion L' as [|? t2 ? ts2 L2 L'2]; subst. inversion L'2 as [|? t3 ? ts3 L3 L'3]; subst.
    inversion L'3 as [|? t4 ? ts4 L4 L'4]; subst. inversion L'4 as [|? t5 ? ts5 L5 L'5]; subst. inversion L'5; subst.
    inversion L2; subst. inversion L5; subst.
    constructor; [intros E; discriminate E|]. constructor; [intros E; discriminate E|].
    constructor; [intros E; destruct A as [-> | ->]; discriminate E|]. constructor; [|constructor; [intros E; discriminate E|constructor]].
    intros _ r v -> NU. destruct (Z.lt_ge_cases v 0) as [NEG|]; [|assumption]. exfalso. apply N.
    exists t1, t3, r. split; [reflexivity|]. left. split; [|exists v; split; assumption].
    destruct A as [-> | ->]; inversion L3; subst; [right|left]; assumption.
  - clear - I L. induction L as [|k t ks ts L1 L IH]; [constructor|]. cbn [forallb] in I. apply andb_prop in I. destruct I as [I1 I2].
    constructor; [intros ->; discriminate I1|apply IH; exact I2].
Qed.

Lemma odd_form_in : forall m ks, odd_form m ks = true -> In (m, ks) (deviating ++ refused).
Proof.
  intros m ks H. unfold odd_form in H. apply existsb_exists in H. destruct H as ([n js] & I & E).
  apply andb_prop in E. destruct E as [E1 E2]. apply str_eqb_eq in E1. apply (list_eqb_eq _ _ kind_eqb_eq) in E2. subst. exact I.
Qed.

Lemma looks_all : forall ks ops, forallb sensible ks = true ->
  Forall2 (fun p t => imatch1 p t = true) (map op_pattern (map trans ks)) ops <-> Forall2 looks ks ops.
Proof.
  induction ks as [|k ks IH]; intros ops S; cbn [map].
  - split; intros H; inversion H; constructor.
  - cbn [forallb] in S. apply andb_prop in S. destruct S as [S1 S2]. split; intros H; inversion H; subst; constructor;
      [apply (proj1 (looks_iff _ _ S1)); assumption|apply (proj1 (IH _ S2)); assumption
      |apply (proj2 (looks_iff _ _ S1)); assumption|apply (proj2 (IH _ S2)); assumption].
Qed.

Lemma rows_result : forall m rs t0 ops s s1 b, dget str_eqb thumb_rows m = Some rs -> 0 <= pc s -> regular s m ops ->
  run_rows rs (t0 :: ops) s = (s1, Ok (Some b)) <->
  exists base ks w ds, In (m, (base, ks)) manual /\ encodes s ks ops w ds /\ s1 = referring s ds /\ b = half_bytes (base + w).
Proof.
  intros m rs t0 ops s s1 b D PC [RG NO]. pose proof tables_ok as T. rewrite !andb_true_iff in T. destruct T as [[[[T1 T2] T3] T4] T5].
  pose proof (PyFacts.dget_In str_eqb str_eqb_eq _ _ _ D) as IR. split.
  - intros H. destruct (run_rows_in _ _ _ _ _ _ H) as (r & I & M & R). unfold table3 in T3. rewrite forallb_forall in T3.
    specialize (T3 _ IR). cbv beta iota in T3. rewrite forallb_forall in T3. specialize (T3 _ I). apply existsb_exists in T3.
    destruct T3 as ([n [base ks]] & IM & E). rewrite !andb_true_iff in E. destruct E as [[E1 E2] E3].
    apply str_eqb_eq in E1. subst n. apply (list_eqb_eq _ _ opnd_eqb_eq) in E2. pose proof (sensible_manual _ _ _ IM) as SE.
    assert (L : Forall2 looks ks ops).
    { apply looks_all; [exact SE|]. rewrite <- E2. apply imatch_cons in M. exact M. }
    apply orb_prop in E3. destruct E3 as [E3|E3].
    + exfalso. apply odd_form_in in E3. exact (RG _ E3 L).
    + destruct (proj1 (row_result base ks r t0 ops s s1 b E2 E3 PC (calm_manual _ _ _ _ _ IM L NO)) (conj M R)) as (w & ds & EN & X).
      exists base, ks, w, ds. split; [exact IM|]. split; [exact EN|exact X].
  - intros (base & ks & w & ds & IM & EN & -> & ->). pose proof (encodes_looks _ _ _ _ _ EN) as L.
    unfold table2 in T2. rewrite forallb_forall in T2. pose proof (T2 _ IM) as E. cbv beta iota in E. apply orb_prop in E. destruct E as [E|E].
    + exfalso. apply odd_form_in in E. exact (RG _ E L).
    + apply existsb_exists in E. destruct E as (r & I & E). apply andb_prop in E. destruct E as [E1 E2].
      apply (list_eqb_eq _ _ opnd_eqb_eq) in E1. unfold rows_of in I. rewrite D in I.
      destruct (proj2 (row_result base ks r t0 ops s (referring s ds) _ E1 E2 PC (calm_manual _ _ _ _ _ IM L NO))
        (ex_intro _ w (ex_intro _ ds (conj EN (conj eq_refl eq_refl))))) as [M R].
      rewrite (run_rows_only rs r t0 ops s); [exact R| |exact I|exact M].
      unfold table1 in T1. rewrite forallb_forall in T1. exact (T1 _ IR).
Qed.

Lemma rows_refused : forall m ks t0 ops s, In (m, ks) refused -> Forall2 looks ks ops ->
  exists rs, dget str_eqb thumb_rows m = Some rs /\ forall s1 b, run_rows rs (t0 :: ops) s <> (s1, Ok (Some b)).
Proof.
  intros m ks t0 ops s I L. pose proof tables_ok as T. rewrite !andb_true_iff in T. destruct T as [[[[T1 T2] T3] T4] T5].
  unfold table4 in T4. rewrite forallb_forall in T4. specialize (T4 _ I). cbv beta iota in T4. rewrite !andb_true_iff in T4.
  destruct T4 as [[R S] D]. unfold rows_of in R. destruct (dget str_eqb thumb_rows m) as [rs|]; [|discriminate D].
  exists rs. split; [reflexivity|]. intros s1 b H. destruct (run_rows_in _ _ _ _ _ _ H) as (r & IR & M & X).
  rewrite forallb_forall in R. specialize (R _ IR). apply orb_prop in R. destruct R as [R|R].
  - apply (proj2 (looks_all _ _ S)) in L. apply imatch_cons in M. exact (clash_ok _ _ _ R L M).
  - destruct (r_fields r) as [fs|] eqn:F; [discriminate R|]. unfold run_row, bind in X. rewrite F in X.
    destruct (iapply (t0 :: ops) (map op_value (r_ops r)) s) as [s2 [vs|e]]; discriminate X.
Qed.

Lemma manual_rows : forall m base ks, In (m, (base, ks)) manual -> exists rs, dget str_eqb thumb_rows m = Some rs.
Proof.
  intros m base ks I. assert (X : forallb (fun '(m, _) => match dget str_eqb thumb_rows m with Some _ => true | None => false end) manual = true)
    by (vm_compute; reflexivity).
  rewrite forallb_forall in X. apply X in I. destruct (dget str_eqb thumb_rows m); [eauto|discriminate].
Qed.

(** ** Register lists *)

Lemma pack_one_bit : forall r n, 0 <= n -> pack_bit r [(n, 1)] = Ok (Z.setbit r n).
Proof.
  intros r n N. unfold pack_bit. cbn [map pack_bits pack_bits_step]. rewrite Z.ltb_irrefl. replace (n - n + 1) with 1 by lia.
  cbn [Z.ltb Z.compare rbind]. change (negb (in_bit_range 1 1)) with false. cbv iota.
  destruct (Z.ltb_spec n 0); [lia|]. cbn [rbind]. unfold Z.setbit. f_equal. f_equal.
  rewrite Z.shiftl_mul_pow2 by lia. rewrite Z.mul_1_l.
  replace (2 ^ (n + 1) - 1) with (Z.ones (n + 1)) by (rewrite Z.ones_equiv; lia).
  rewrite Z.land_ones by lia. apply Z.mod_small. split; [apply Z.pow_nonneg; lia|apply Z.pow_lt_mono_r; lia].
Qed.
Lemma setbit_iff : forall r n i, 0 <= n -> Z.testbit (Z.setbit r n) i = true <-> Z.testbit r i = true \/ i = n.
Proof. intros r n i N. rewrite Z.setbit_iff by lia. split; intros [H|H]; auto. Qed.
Lemma setbit_pos : forall r n, 0 <= r -> 0 <= n -> 0 <= Z.setbit r n.
Proof. intros. rewrite Z.setbit_spec'. apply Z.lor_nonneg. split; [assumption|apply Z.pow_nonneg; lia]. Qed.

Lemma set_range_ok : forall k first r, 0 <= first -> 0 <= r -> exists v, set_range k first r = Ok v /\ 0 <= v /\
  forall i, Z.testbit v i = true <-> Z.testbit r i = true \/ first <= i < first + Z.of_nat k.
Proof.
  induction k as [|k IH]; intros first r F R; cbn [set_range].
  - exists r. split; [reflexivity|]. split; [exact R|]. intros i. split; [auto|]. intros [H|H]; [exact H|lia].
  - rewrite pack_one_bit by exact F. cbn [rbind]. destruct (IH (first + 1) (Z.setbit r first)) as (v & E & V & B);
      [lia|apply setbit_pos; lia|]. exists v. split; [exact E|]. split; [exact V|]. intros i. rewrite B, setbit_iff by lia. split.
    + intros [[H|H]|H]; [auto|right; lia|right; lia].
    + intros [H|H]; [auto|]. destruct (Z.eq_dec i first); [auto|right; lia].
Qed.

Lemma split_minus_iff : forall t acc a b, Forall (fun c => c <> "-"%char) acc ->
  split_minus acc t = [a; b] <-> acc ++ t = a ++ "-"%char :: b /\ Forall (fun c => c <> "-"%char) a /\ Forall (fun c => c <> "-"%char) b.
Proof.
  assert (ONE : forall t acc b, Forall (fun c => c <> "-"%char) acc ->
    split_minus acc t = [b] <-> b = acc ++ t /\ Forall (fun c => c <> "-"%char) t).
  { induction t as [|c t IH]; intros acc b A; cbn [split_minus].
    - rewrite app_nil_r. split; [intros H; injection H as <-; split; [reflexivity|constructor]|intros [-> _]; reflexivity].
    - destruct (Ascii.eqb c "-") eqn:E.
      + apply Ascii.eqb_eq in E. subst c. split; [|intros [_ H]; inversion H; congruence].
        intros H. injection H as _ H. destruct t; cbn in H; [discriminate|]. destruct (Ascii.eqb a "-"); [discriminate|].
        exfalso. assert (Y : split_minus ([] ++ [a]) t <> []); [|contradiction].
        clear. generalize ([] ++ [a]). induction t as [|c t IH]; intros l; cbn [split_minus]; [discriminate|]. destruct (Ascii.eqb c "-"); [discriminate|apply IH].
      + apply Ascii.eqb_neq in E. rewrite IH by (apply Forall_app; split; [exact A|repeat constructor; exact E]).
        rewrite <- app_assoc. cbn [app]. split; intros [H1 H2]; (split; [exact H1|]); [constructor; assumption|inversion H2; assumption]. }
  induction t as [|c t IH]; intros acc a b A; cbn [split_minus].
  - split; [discriminate|]. intros (E & _). exfalso. rewrite app_nil_r in E. subst acc. apply Forall_app in A. destruct A as [_ A].
    inversion A; congruence.
  - destruct (Ascii.eqb c "-") eqn:E.
    + apply Ascii.eqb_eq in E. subst c. split.
      * intros H. injection H as <- H. apply ONE in H; [|constructor]. destruct H as [-> H]. cbn [app]. split; [reflexivity|]. split; assumption.
      * intros (H & FA & FB).
        assert (X : acc = a /\ t = b).
        { clear - H A FA. revert a H FA. induction A as [|x acc NX A IH]; intros [|y a] H FA; cbn [app] in H.
          - injection H as ->. auto.
          - injection H as <- _. inversion FA; congruence.
          - injection H as -> _. congruence.
          - injection H as -> H. inversion FA; subst. destruct (IH _ H) as [-> ->]; auto. }
        destruct X as [-> ->]. f_equal. apply ONE; [constructor|]. split; [reflexivity|exact FB].
    + apply Ascii.eqb_neq in E. rewrite IH by (apply Forall_app; split; [exact A|repeat constructor; exact E]).
      rewrite <- app_assoc. reflexivity.
Qed.

Lemma low_no_minus : forall a m, In (lower a, m) low_names -> Forall (fun c => c <> "-"%char) a.
Proof.
  intros a m H. apply Forall_forall. intros c I ->.
  assert (J : In "-"%char (lower a)) by (apply (in_map lower_chr) in I; exact I).
  generalize dependent (lower a). intros x H J. cbn in H.
  repeat (destruct H as [H|H]; [injection H as <- <-; cbn in J; repeat (destruct J as [J|J]; [discriminate J|]); destruct J|]). destruct H.
Qed.
Lemma low_lower : forall t m, In (t, m) low_names -> lower t = t.
Proof. intros t m H. cbn in H. repeat (destruct H as [H|H]; [injection H as <- <-; reflexivity|]). destruct H. Qed.

Lemma item_fun : forall t m n m' n', item t m n -> item t m' n' -> m = m' /\ n = n'.
Proof.
  assert (X : forall a b x, In (a ++ "-"%char :: b, x) low_names -> False).
  { intros a b x H. pose proof (low_lower _ _ H) as E. assert (H' : In (lower (a ++ "-"%char :: b), x) low_names) by (rewrite E; exact H).
    apply low_no_minus in H'. apply Forall_app in H'. destruct H' as [_ H']. inversion H'; congruence. }
  intros t m n m' n' A B. inversion A; subst; inversion B; subst.
  - assert (n = n') by (eapply low_fun; eassumption). lia.
  - exfalso. eapply X; eassumption.
  - exfalso. eapply X; eassumption.
  - assert (E : split_minus [] (a0 ++ "-"%char :: b0) = [a; b]).
    { apply split_minus_iff; [constructor|]. cbn [app]. split; [assumption|]. split; eapply low_no_minus; eassumption. }
    assert (E' : split_minus [] (a0 ++ "-"%char :: b0) = [a0; b0]).
    { apply split_minus_iff; [constructor|]. cbn [app]. split; [reflexivity|]. split; eapply low_no_minus; eassumption. }
    rewrite E in E'. injection E' as -> ->. split; eapply low_fun; eassumption.
Qed.

Lemma minus_in : forall t, existsb (Ascii.eqb "-") t = true <-> In "-"%char t.
Proof.
  intros t. rewrite existsb_exists. split.
  - intros (x & I & E). apply Ascii.eqb_eq in E. subst x. exact I.
  - intros I. exists "-"%char. split; [exact I|apply Ascii.eqb_refl].
Qed.

Lemma rlist_step : forall t r s, 0 <= r ->
  (exists m n, item t m n /\ exists v, (forall rest, th_rlist (t :: rest) r s = th_rlist rest v s) /\ 0 <= v /\
     forall i, Z.testbit v i = true <-> Z.testbit r i = true \/ m <= i <= n) \/
  ((forall m n, ~ item t m n) /\ forall rest, exists e, th_rlist (t :: rest) r s = (s, Err e)).
Proof.
  intros t r s R.
  assert (LO : forall x s0, In (lower x) low_regs -> exists n, low_reg x s0 = (s0, Ok n) /\ In (lower x, n) low_names) by (intros; apply low_run; assumption).
  destruct (str_in t low_regs) eqn:SI.
  - left. apply str_in_In in SI. assert (IL : exists n, In (t, n) low_names) by (apply low_in; exact SI). destruct IL as [n IL].
    pose proof (low_lower _ _ IL) as E. destruct (LO t s) as (n' & EV & IL'); [rewrite E; exact SI|].
    rewrite E in IL'. assert (n' = n) by (eapply low_fun; eassumption). subst n'. exists n, n. split; [constructor; exact IL|].
    pose proof (low_range _ _ IL). exists (Z.setbit r n). split; [|split; [apply setbit_pos; lia|]].
    + intros rest. cbn [th_rlist]. assert (str_in t low_regs = true) as -> by (apply str_in_In; exact SI).
      unfold bind. rewrite EV. rewrite pack_one_bit by lia. reflexivity.
    + intros i. rewrite setbit_iff by lia. split; (intros [X|X]; [auto|right; lia]).
  - assert (NL : forall x, ~ In (t, x) low_names).
    { intros x I. assert (In t low_regs) by (apply low_in; eauto). apply str_in_In in H. congruence. }
    destruct (existsb (Ascii.eqb "-") t) eqn:EM.
    2:{ right. split.
        - intros m n H. inversion H; subst; [eapply NL; eassumption|].
          assert (existsb (Ascii.eqb "-") (a ++ "-"%char :: b) = true) by (apply minus_in, in_or_app; right; left; reflexivity). congruence.
        - intros rest. cbn [th_rlist]. rewrite SI, EM. eexists. reflexivity. }
    destruct (split_minus [] t) as [|a [|b [|x l]]] eqn:SP.
    1,2,4: right; (split; [|intros rest; cbn [th_rlist]; rewrite SI, EM, SP; eexists; reflexivity]);
      intros m n H; inversion H; subst; [eapply NL; eassumption|];
      match goal with A : In (lower ?a, _) low_names, B : In (lower ?b, _) low_names |- _ =>
        assert (Y : split_minus [] (a ++ "-"%char :: b) = [a; b]) by
          (apply split_minus_iff; [constructor|]; split; [reflexivity|]; split; eapply low_no_minus; eassumption) end; congruence.
    pose proof SP as SP0. apply split_minus_iff in SP0; [|constructor]. cbn [app] in SP0. destruct SP0 as (-> & FA & FB).
    assert (UNI : forall m n, item (a ++ "-"%char :: b) m n -> In (lower a, m) low_names /\ In (lower b, n) low_names /\ m <= n).
    { intros m n H. inversion H; subst; [exfalso; eapply NL; eassumption|].
      assert (Y : split_minus [] (a ++ "-"%char :: b) = [a0; b0]).
      { apply split_minus_iff; [constructor|]. cbn [app]. split; [congruence|]. split; eapply low_no_minus; eassumption. }
      rewrite SP in Y. injection Y as <- <-. auto. }
    destruct (str_in (lower a) low_regs) eqn:SA.
    2:{ right. split; [|intros rest; cbn [th_rlist]; rewrite SI, EM, SP, SA; eexists; reflexivity].
        intros m n H. apply UNI in H. destruct H as (H & _). assert (I : In (lower a) low_regs) by (apply low_in; eauto).
        apply str_in_In in I. congruence. }
    destruct (str_in (lower b) low_regs) eqn:SB.
    2:{ right. split; [|intros rest; cbn [th_rlist]; rewrite SI, EM, SP, SA, SB; eexists; reflexivity].
        intros m n H. apply UNI in H. destruct H as (_ & H & _). assert (I : In (lower b) low_regs) by (apply low_in; eauto).
        apply str_in_In in I. congruence. }
    destruct (LO a s) as (m & Ea & Ia); [apply str_in_In; exact SA|]. destruct (LO b s) as (n & Eb & Ib); [apply str_in_In; exact SB|].
    pose proof (low_range _ _ Ia). pose proof (low_range _ _ Ib).
    destruct (Z.ltb_spec n m).
    + right. split.
      * intros m' n' H'. apply UNI in H'. destruct H' as (A & B & C).
        assert (m' = m) by (eapply low_fun; eassumption). assert (n' = n) by (eapply low_fun; eassumption). lia.
      * intros rest. cbn [th_rlist]. rewrite SI, EM, SP, SA, SB. cbn [negb]. unfold bind. rewrite Ea, Eb.
        destruct (Z.ltb_spec n m); [eexists; reflexivity|lia].
    + left. exists m, n. split; [apply it_range; assumption|].
      destruct (set_range_ok (Z.to_nat (n + 1 - m)) m r) as (v & E & V & BT); [lia|lia|].
      exists v. split; [|split; [exact V|]].
      * intros rest. cbn [th_rlist]. rewrite SI, EM, SP, SA, SB. cbn [negb]. unfold bind. rewrite Ea, Eb.
        destruct (Z.ltb_spec n m); [lia|]. rewrite E. reflexivity.
      * intros i. rewrite BT. rewrite Z2Nat.id by lia. split; (intros [X|X]; [auto|right; lia]).
Qed.

Lemma rlist_iff : forall ts r s s' v, 0 <= r ->
  th_rlist ts r s = (s', Ok v) <->
  s' = s /\ Forall (fun t => exists m n, item t m n) ts /\ 0 <= v /\
  forall i, Z.testbit v i = true <-> Z.testbit r i = true \/ exists t m n, In t ts /\ item t m n /\ m <= i <= n.
Proof.
  induction ts as [|t ts IH]; intros r s s' v R.
  - cbn [th_rlist]. split.
    + intros H. injection H as <- <-. split; [reflexivity|]. split; [constructor|]. split; [exact R|].
      intros i. split; [auto|]. intros [H|(t & m & n & [] & _)]. exact H.
    + intros (-> & _ & V & B). assert (E : v = r); [|subst; reflexivity]. apply Z.bits_inj. intros i.
      destruct (Z.testbit r i) eqn:E; [apply B; auto|]. apply Bool.not_true_iff_false. intros T. apply B in T.
      destruct T as [T|(t & m & n & [] & _)]. congruence.
  - destruct (rlist_step t r s R) as [(m & n & IT & u & ST & U & BT)|(NI & FAIL)].
    + rewrite ST, (IH u s s' v U). split; intros (-> & F & V & B); (split; [reflexivity|]).
      * split; [constructor; [eauto|exact F]|]. split; [exact V|]. intros i. rewrite B, BT. split.
        -- intros [[H|H]|(t' & m' & n' & I & X)]; [auto|right; exists t, m, n; split; [left; reflexivity|auto]|right; exists t', m', n'; split; [right; exact I|exact X]].
        -- intros [H|(t' & m' & n' & [<-|I] & X)]; [auto| |right; exists t', m', n'; auto].
           destruct X as [X Y]. destruct (item_fun _ _ _ _ _ IT X) as [-> ->]. auto.
      * inversion F; subst. split; [assumption|]. split; [exact V|]. intros i. rewrite B, BT. split.
        -- intros [H|(t' & m' & n' & [<-|I] & X)]; [auto| |right; exists t', m', n'; auto].
           destruct X as [X Y]. destruct (item_fun _ _ _ _ _ IT X) as [-> ->]. auto.
        -- intros [[H|H]|(t' & m' & n' & I & X)]; [auto|right; exists t, m, n; split; [left; reflexivity|auto]|right; exists t', m', n'; split; [right; exact I|exact X]].
    + destruct (FAIL ts) as (e & E). rewrite E. split; [discriminate|]. intros (_ & F & _). inversion F; subst.
      destruct H1 as (m & n & H1). exfalso. exact (NI m n H1).
Qed.

Lemma item_range : forall t m n, item t m n -> 0 <= m /\ m <= n /\ n < 8.
Proof.
  intros t m n H. destruct H.
  - pose proof (low_range _ _ H). lia.
  - pose proof (low_range _ _ H). pose proof (low_range _ _ H0). lia.
Qed.
Lemma mask_range : forall ts v, list_mask ts v -> 0 <= v < 256.
Proof.
  intros ts v (F & V & B). split; [exact V|]. destruct (Z.eq_dec v 0) as [->|NZ]; [lia|].
  change 256 with (2 ^ 8). apply Z.log2_lt_pow2; [lia|].
  assert (T : Z.testbit v (Z.log2 v) = true) by (apply Z.bit_log2; lia).
  apply B in T; [|apply Z.log2_nonneg]. destruct T as (t & m & n & _ & I & L). apply item_range in I. lia.
Qed.
Lemma rlist_mask : forall ts s s' v, th_rlist ts 0 s = (s', Ok v) <-> s' = s /\ list_mask ts v.
Proof.
  intros ts s s' v. rewrite rlist_iff by lia. unfold list_mask. split; intros (A & F & V & B); (split; [exact A|split; [exact F|split; [exact V|]]]).
  - intros i I. rewrite B. rewrite Z.bits_0. split; [intros [H|H]; [discriminate|exact H]|auto].
  - intros i. rewrite Z.bits_0. destruct (Z.lt_ge_cases i 0) as [N|N].
    + rewrite Z.testbit_neg_r by exact N. split; [discriminate|]. intros [H|(t & m & n & _ & I & L)]; [discriminate|]. apply item_range in I. lia.
    + rewrite (B i N). split; [auto|intros [H|H]; [discriminate|exact H]].
Qed.
