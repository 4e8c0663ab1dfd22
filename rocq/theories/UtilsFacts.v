(** Proofs about the utilities (utils.py). *)
From Coq Require Import Lia ZifyBool.
From Verif Require Import Py Utils SpecUtils.
Local Open Scope Z_scope.

Ltac Zify.zify_post_hook ::= Z.div_mod_to_equations.

(** ** le_bytes *)

Lemma le_bytes_length : forall n v, length (le_bytes n v) = n.
Proof. induction n; cbn [le_bytes length]; auto. Qed.

Lemma le_bytes_bytes : forall n v, Forall is_byte (le_bytes n v).
Proof.
  induction n; cbn [le_bytes]; intros; constructor; auto.
  unfold is_byte. apply Z.mod_pos_bound. lia.
Qed.

Lemma pow256_succ : forall n : nat, 256 ^ Z.of_nat (S n) = 256 * 256 ^ Z.of_nat n.
Proof. intros. rewrite Nat2Z.inj_succ, Z.pow_succ_r by lia. reflexivity. Qed.

Lemma le_value_le_bytes : forall n v, le_value (le_bytes n v) = v mod 256 ^ Z.of_nat n.
Proof.
  induction n; intros.
  - cbn [le_bytes le_value]. cbn. rewrite Z.mod_1_r. reflexivity.
  - cbn [le_bytes le_value]. rewrite IHn, pow256_succ.
    rewrite Z.rem_mul_r by (try lia; apply Z.pow_nonzero; lia). lia.
Qed.

Lemma int_bytes_length : forall be n v, length (int_bytes be n v) = n.
Proof. intros [] n v; cbn [int_bytes]; rewrite ?rev_length; apply le_bytes_length. Qed.

Lemma int_bytes_bytes : forall be n v, Forall is_byte (int_bytes be n v).
Proof.
  intros [] n v; cbn [int_bytes]; [apply Forall_rev|]; apply le_bytes_bytes.
Qed.

Lemma read_int_bytes : forall be n v,
  read_value be (int_bytes be n v) = v mod 256 ^ Z.of_nat n.
Proof.
  intros [] n v; cbn [read_value int_bytes]; rewrite ?rev_involutive; apply le_value_le_bytes.
Qed.

Lemma pow256_bits : forall n : nat, 256 ^ Z.of_nat n = 2 ^ (8 * Z.of_nat n).
Proof. intros. rewrite Z.pow_mul_r by lia. reflexivity. Qed.

Lemma le_value_bound : forall b, Forall is_byte b -> 0 <= le_value b < 256 ^ zlen b.
Proof.
  unfold zlen. induction 1; cbn [le_value length].
  - cbn. lia.
  - unfold is_byte in H. rewrite pow256_succ. lia.
Qed.

Lemma Forall_firstn : forall {A} (P : A -> Prop) n l, Forall P l -> Forall P (firstn n l).
Proof. intros A P n. induction n; intros l H; cbn; auto. destruct H; cbn; auto. Qed.
Lemma Forall_skipn : forall {A} (P : A -> Prop) n l, Forall P l -> Forall P (skipn n l).
Proof. intros A P n. induction n; intros l H; cbn; auto. destruct H; cbn; auto. Qed.

(** ** C04 *)

Lemma in_bit_range_iff : forall v n, 0 <= n -> in_bit_range v n = true <-> 0 <= v < 2 ^ n.
Proof.
  intros v n Hn. unfold in_bit_range.
  replace (2 ^ n - 1) with (Z.ones n) by (rewrite Z.ones_equiv; lia).
  rewrite Z.land_ones by lia. rewrite Z.eqb_eq.
  pose proof (Z.pow_pos_nonneg 2 n ltac:(lia) Hn).
  split; intros.
  - rewrite <- H0. apply Z.mod_pos_bound; lia.
  - apply Z.mod_small; lia.
Qed.

Lemma in_bit_range_false : forall v n, 0 <= n ->
  in_bit_range v n = false <-> ~ (0 <= v < 2 ^ n).
Proof.
  intros. rewrite <- in_bit_range_iff by auto. destruct (in_bit_range v n); split; intros; congruence.
Qed.

Lemma pow2_half : forall n, 1 <= n -> 2 ^ n = 2 * 2 ^ (n - 1).
Proof.
  intros. replace n with (Z.succ (n - 1)) at 1 by lia. apply Z.pow_succ_r. lia.
Qed.

Lemma pow2_pos : forall n, 0 <= n -> 0 < 2 ^ n.
Proof. intros. apply Z.pow_pos_nonneg; lia. Qed.

Lemma in_bit_range_decimal_iff : forall v n signed, 1 <= n ->
  in_bit_range_decimal v n signed = true <->
  - 2 ^ (n - 1) <= v < (if signed then 2 ^ (n - 1) else 2 ^ n).
Proof.
  intros v n signed Hn. unfold in_bit_range_decimal.
  pose proof (pow2_half n Hn). pose proof (pow2_pos (n - 1) ltac:(lia)).
  destruct (v <? 0) eqn:E.
  - apply Z.ltb_lt in E. destruct (v + 2 ^ n <? 2 ^ n / 2) eqn:E2.
    + split; [discriminate|]. intros. destruct signed; lia.
    + rewrite in_bit_range_iff by lia. destruct signed; lia.
  - apply Z.ltb_ge in E. replace (0 <=? v) with true by lia. rewrite andb_true_r.
    destruct signed; rewrite in_bit_range_iff by lia; lia.
Qed.

(** ** C01, C02 *)

Lemma land_ones_mod : forall v n, 0 <= n -> Z.land v (2 ^ n - 1) = v mod 2 ^ n.
Proof.
  intros. replace (2 ^ n - 1) with (Z.ones n) by (rewrite Z.ones_equiv; lia).
  apply Z.land_ones; auto.
Qed.

Lemma neg_fix_mod : forall v n, 1 <= n ->
  neg_fix (v mod 2 ^ n) n = as_signed n (v mod 2 ^ n).
Proof.
  intros v n Hn. unfold neg_fix, as_signed.
  rewrite !Z.shiftl_1_l.
  pose proof (Z.mod_pos_bound v (2 ^ n) (pow2_pos n ltac:(lia))).
  pose proof (pow2_half n Hn). pose proof (pow2_pos (n - 1) ltac:(lia)).
  set (w := v mod 2 ^ n) in *.
  assert (Hb : Z.testbit w (n - 1) = negb (w <? 2 ^ (n - 1))).
  { rewrite Z.testbit_eqb by lia.
    destruct (w <? 2 ^ (n - 1)) eqn:E; cbn [negb].
    - rewrite Z.div_small by lia. reflexivity.
    - replace (w / 2 ^ (n - 1)) with 1; [reflexivity|].
      apply Z.div_unique with (w - 2 ^ (n - 1)); lia. }
  assert (Hl : (Z.land w (2 ^ (n - 1)) =? 0) = negb (Z.testbit w (n - 1))).
  { destruct (Z.testbit w (n - 1)) eqn:E; cbn [negb].
    - apply Z.eqb_neq. intro C.
      assert (Z.testbit (Z.land w (2 ^ (n - 1))) (n - 1) = true).
      { rewrite Z.land_spec, E, Z.pow2_bits_true by lia. reflexivity. }
      rewrite C, Z.bits_0 in H2. discriminate.
    - apply Z.eqb_eq. apply Z.bits_inj'. intros i Hi. rewrite Z.land_spec, Z.bits_0.
      destruct (Z.eq_dec i (n - 1)) as [->|].
      + rewrite E. reflexivity.
      + rewrite Z.pow2_bits_false by lia. apply andb_false_r. }
  rewrite Hl, Hb. destruct (w <? 2 ^ (n - 1)); cbn [negb]; lia.
Qed.

Lemma as_signed_spec : forall w v, 1 <= w -> 0 <= v < 2 ^ w ->
  - 2 ^ (w - 1) <= as_signed w v < 2 ^ (w - 1) /\ as_signed w v mod 2 ^ w = v.
Proof.
  intros. unfold as_signed. pose proof (pow2_half w H).
  pose proof (pow2_pos (w - 1) ltac:(lia)).
  destruct (v <? 2 ^ (w - 1)) eqn:E.
  - split; [lia|]. apply Z.mod_small; lia.
  - split; [lia|].
    replace (v - 2 ^ w) with (v + (-1) * 2 ^ w) by ring.
    rewrite Z.mod_add by lia. apply Z.mod_small; lia.
Qed.

Lemma as_signed_unique : forall w v, 1 <= w -> - 2 ^ (w - 1) <= v < 2 ^ (w - 1) ->
  as_signed w (v mod 2 ^ w) = v.
Proof.
  intros. pose proof (pow2_half w H). pose proof (pow2_pos (w - 1) ltac:(lia)).
  unfold as_signed. destruct (Z_lt_dec v 0).
  - replace (v mod 2 ^ w) with (v + 2 ^ w).
    + destruct (v + 2 ^ w <? 2 ^ (w - 1)) eqn:E; lia.
    + apply Z.mod_unique with (-1); lia.
  - rewrite Z.mod_small by lia. destruct (v <? 2 ^ (w - 1)) eqn:E; lia.
Qed.

Lemma read_fields_app : forall be w n b r, length b = w ->
  read_fields be w (S n) (b ++ r) = read_value be b :: read_fields be w n r.
Proof.
  intros. cbn [read_fields].
  rewrite firstn_app, skipn_app, H, Nat.sub_diag. cbn [firstn skipn].
  rewrite app_nil_r, <- H, firstn_all, skipn_all. reflexivity.
Qed.

Lemma struct_pack_same : forall be f (g : option Z -> Z) args,
  (forall a, struct_pack1 be f (g a) = Ok (int_bytes be (sf_size f) (g a))) ->
  exists out,
    struct_pack be (map (fun _ => f) args) (map g args) = Ok out /\
    length out = (sf_size f * length args)%nat /\
    Forall is_byte out /\
    read_fields be (sf_size f) (length args) out
      = map (fun a => g a mod 256 ^ Z.of_nat (sf_size f)) args.
Proof.
  intros be f g args H. induction args.
  - exists []. cbn [map struct_pack read_fields length]. rewrite Nat.mul_0_r. auto.
  - destruct IHargs as (out & E & L & B & R).
    exists (int_bytes be (sf_size f) (g a) ++ out).
    cbn [map struct_pack]. rewrite H, E. cbn [rbind length].
    repeat split.
    + rewrite app_length, int_bytes_length. lia.
    + apply Forall_app; split; auto. apply int_bytes_bytes.
    + rewrite read_fields_app by apply int_bytes_length.
      rewrite read_int_bytes, R. reflexivity.
Qed.

Lemma pack_u_spec : forall be f mask, sf_signed f = false ->
  mask = 2 ^ (8 * Z.of_nat (sf_size f)) - 1 ->
  packs_unsigned be (sf_size f) (pack_u be f mask).
Proof.
  intros be f mask Hs -> args. unfold pack_u.
  assert (P : 0 <= 8 * Z.of_nat (sf_size f)) by lia.
  assert (Hm : forall a, masked (2 ^ (8 * Z.of_nat (sf_size f)) - 1) a
                 = arg_value a mod 2 ^ (8 * Z.of_nat (sf_size f))).
  { intros [v|]; cbn [masked arg_value].
    - apply land_ones_mod; auto.
    - rewrite Z.mod_0_l by (apply Z.pow_nonzero; lia). reflexivity. }
  destruct (struct_pack_same be f (masked (2 ^ (8 * Z.of_nat (sf_size f)) - 1)) args)
    as (out & E & L & B & R).
  - intros a. unfold struct_pack1. rewrite Hs, Hm.
    pose proof (Z.mod_pos_bound (arg_value a) _ (pow2_pos _ P)).
    destruct (_ && _) eqn:E; [reflexivity|]. lia.
  - exists out. repeat split; auto. rewrite R. apply map_ext. intros a.
    rewrite Hm, pow256_bits, Z.mod_mod by (apply Z.pow_nonzero; lia). reflexivity.
Qed.

Lemma Forall2_map_r : forall {A B} (P : A -> B -> Prop) (f : A -> B) l,
  (forall a, P a (f a)) -> Forall2 P l (map f l).
Proof. intros. induction l; cbn; constructor; auto. Qed.

Lemma mod_sub_zero : forall a b m, 0 < m -> a mod m = b mod m -> (a - b) mod m = 0.
Proof. intros. rewrite Zminus_mod, H0, Z.sub_diag. apply Z.mod_0_l. lia. Qed.

Lemma pack_s_spec : forall be f mask bits, sf_signed f = true ->
  bits = 8 * Z.of_nat (sf_size f) -> mask = 2 ^ bits - 1 ->
  packs_signed be (sf_size f) (pack_s be f mask bits).
Proof.
  intros be f mask bits Hs Hb -> args. unfold pack_s. rewrite <- Hb.
  assert (P : 8 <= bits) by (destruct f; cbn in Hb; lia).
  assert (Hm : forall a, neg_masked (2 ^ bits - 1) bits a
                 = as_signed bits (arg_value a mod 2 ^ bits)).
  { intros [v|]; cbn [neg_masked arg_value].
    - rewrite land_ones_mod by lia. apply neg_fix_mod. lia.
    - rewrite Z.mod_0_l by (apply Z.pow_nonzero; lia). unfold as_signed.
      pose proof (pow2_pos (bits - 1) ltac:(lia)).
      destruct (0 <? 2 ^ (bits - 1)) eqn:E; lia. }
  assert (Hr : forall a, 0 <= arg_value a mod 2 ^ bits < 2 ^ bits)
    by (intros; apply Z.mod_pos_bound, pow2_pos; lia).
  destruct (struct_pack_same be f (neg_masked (2 ^ bits - 1) bits) args)
    as (out & E & L & B & R).
  - intros a. unfold struct_pack1. rewrite Hs, Hm, <- Hb.
    pose proof (as_signed_spec bits _ ltac:(lia) (Hr a)).
    destruct (_ && _) eqn:E; [reflexivity|]. lia.
  - exists out. repeat split; auto. cbn zeta. rewrite R, map_map.
    apply Forall2_map_r. intros a. rewrite pow256_bits, <- Hb, Hm.
    pose proof (as_signed_spec bits _ ltac:(lia) (Hr a)) as [Hr1 Hr2].
    rewrite Hr2. split; [apply as_signed_spec; auto; lia|].
    apply mod_sub_zero; [apply pow2_pos; lia|].
    rewrite Hr2. reflexivity.
Qed.

(** ** C03 *)

Lemma pack_bits_step_ok : forall base f,
  0 <= f_lo f ->
  (field_ok f ->
   pack_bits_step base f
     = Ok (Z.lor base (Z.shiftl (f_val f mod 2 ^ f_width f) (f_lo f)))) /\
  (~ field_ok f -> pack_bits_step base f = Err (AExc InvalidBitRange)).
Proof.
  intros base [[hi lo] v]. unfold field_ok, f_width, f_hi, f_lo, f_val, pack_bits_step.
  cbn [fst snd]. intros Hlo.
  destruct (hi <? lo) eqn:E0.
  { split; [intros; lia | reflexivity]. }
  set (n := hi - lo + 1). assert (Hn : 1 <= n) by lia.
  pose proof (pow2_half n Hn) as Hh. pose proof (pow2_pos (n - 1) ltac:(lia)) as Hp.
  assert (Hhi : hi + 1 = n + lo) by lia. rewrite Hhi. clearbody n.
  assert (Hfin : forall w, 0 <= w < 2 ^ n -> w = v mod 2 ^ n ->
     (if negb (in_bit_range w n) then Err (AExc InvalidBitRange)
      else if lo <? 0 then Err (PExc ValueError)
      else Ok (Z.lor base (Z.land (Z.shiftl w lo) (2 ^ (n + lo) - 1))))
     = Ok (Z.lor base (Z.shiftl (v mod 2 ^ n) lo))).
  { intros w Hw <-.
    replace (in_bit_range w n) with true by (symmetry; apply in_bit_range_iff; lia).
    cbn [negb]. replace (lo <? 0) with false by lia.
    rewrite land_ones_mod by lia. rewrite Z.shiftl_mul_pow2 by lia.
    rewrite Z.mod_small; auto.
    rewrite Z.pow_add_r by lia. pose proof (pow2_pos lo Hlo). nia. }
  destruct (v <? 0) eqn:E1.
  - destruct (v + 2 ^ n <? 2 ^ n / 2) eqn:E2; cbn [rbind].
    + split; [intros; lia | reflexivity].
    + split; [|intros; lia]. intros _. apply Hfin; [lia|].
      apply Z.mod_unique with (-1); lia.
  - cbn [rbind]. split; intros H.
    + apply Hfin; [lia|]. symmetry. apply Z.mod_small. lia.
    + replace (in_bit_range v n) with false
        by (symmetry; apply in_bit_range_false; lia). reflexivity.
Qed.

Lemma field_dec : forall f, {field_ok f} + {~ field_ok f}.
Proof.
  intros f. unfold field_ok.
  destruct (Z_le_dec (f_lo f) (f_hi f)), (Z_le_dec (- 2 ^ (f_width f - 1)) (f_val f)),
    (Z_lt_dec (f_val f) (2 ^ f_width f)); tauto.
Qed.

Lemma testbit_field : forall f i, 0 <= f_lo f -> field_ok f -> 0 <= i ->
  Z.testbit (Z.shiftl (f_val f mod 2 ^ f_width f) (f_lo f)) i
  = in_field f i && Z.testbit (f_val f) (i - f_lo f).
Proof.
  intros f i Hlo [Hle Hv] Hi. unfold in_field.
  rewrite Z.shiftl_spec by lia.
  destruct (f_lo f <=? i) eqn:E; cbn [andb].
  - rewrite <- Z.land_ones by (unfold f_width; lia). rewrite Z.land_spec.
    destruct (i <=? f_hi f) eqn:E2; cbn [andb].
    + rewrite Z.ones_spec_low by (unfold f_width; lia). apply andb_true_r.
    + rewrite Z.ones_spec_high by (unfold f_width; lia). apply andb_false_r.
  - apply Z.testbit_neg_r. lia.
Qed.

Lemma pack_bits_spec : forall fs base,
  Forall (fun f => 0 <= f_lo f) fs ->
  (Forall field_ok fs ->
   exists r, pack_bits base fs = Ok r /\
     forall i, 0 <= i -> Z.testbit r i = Z.testbit base i || fields_bit fs i) /\
  (~ Forall field_ok fs -> pack_bits base fs = Err (AExc InvalidBitRange)).
Proof.
  induction fs as [|f fs IH]; intros base Hlo.
  - split; [|intros H; exfalso; apply H; constructor].
    intros _. exists base. split; [reflexivity|]. intros. cbn [fields_bit existsb].
    rewrite orb_false_r. reflexivity.
  - inversion Hlo as [|? ? Hf Hfs]; subst.
    destruct (pack_bits_step_ok base f Hf) as [S1 S2].
    cbn [pack_bits]. split; intros H.
    + inversion H as [|? ? Hok Hoks]; subst. rewrite S1 by auto. cbn [rbind].
      destruct (IH (Z.lor base (Z.shiftl (f_val f mod 2 ^ f_width f) (f_lo f))) Hfs)
        as [IH1 _].
      destruct (IH1 Hoks) as (r & E & B). exists r. split; auto.
      intros i Hi. rewrite B by auto. rewrite Z.lor_spec, testbit_field by auto.
      unfold fields_bit. cbn [existsb]. rewrite orb_assoc. reflexivity.
    + destruct (field_dec f) as [Hok|Hno].
      * rewrite S1 by auto. cbn [rbind]. apply IH; auto.
      * rewrite S2 by auto. reflexivity.
Qed.

(** A field whose bits are untouched by the base and the other fields reads
    back as the value written. *)
Lemma pack_bits_read : forall l1 f l2 base r,
  Forall (fun f => 0 <= f_lo f) (l1 ++ f :: l2) ->
  Forall (disjoint f) (l1 ++ l2) ->
  (forall i, f_lo f <= i <= f_hi f -> Z.testbit base i = false) ->
  pack_bits base (l1 ++ f :: l2) = Ok r ->
  Z.shiftr r (f_lo f) mod 2 ^ f_width f = f_val f mod 2 ^ f_width f.
Proof.
  intros l1 f l2 base r Hlo Hd Hb E.
  destruct (pack_bits_spec (l1 ++ f :: l2) base Hlo) as [S1 S2].
  assert (Hok : Forall field_ok (l1 ++ f :: l2)).
  { destruct (Forall_dec field_ok field_dec (l1 ++ f :: l2)); auto.
    rewrite S2 in E by auto. discriminate. }
  destruct (S1 Hok) as (r' & E' & B). rewrite E in E'. injection E' as <-.
  assert (Hfok : field_ok f) by (eapply Forall_elt; eauto).
  assert (Hflo : 0 <= f_lo f) by (apply Forall_elt in Hlo; auto).
  assert (Hw : 0 <= f_width f) by (destruct Hfok; unfold f_width; lia).
  rewrite <- !Z.land_ones by auto.
  apply Z.bits_inj'. intros i Hi. rewrite !Z.land_spec.
  destruct (Z_lt_dec i (f_width f)).
  2:{ rewrite !Z.ones_spec_high by lia. rewrite !andb_false_r. reflexivity. }
  rewrite Z.ones_spec_low by lia. rewrite !andb_true_r.
  rewrite Z.shiftr_spec by auto. rewrite B by lia.
  rewrite Hb by (unfold f_width in *; lia). cbn [orb].
  unfold fields_bit. rewrite existsb_app. cbn [existsb].
  replace (i + f_lo f - f_lo f) with i by lia.
  replace (in_field f (i + f_lo f)) with true
    by (unfold in_field, f_width in *; lia).
  assert (Hno : forall l, Forall (disjoint f) l ->
    existsb (fun g => in_field g (i + f_lo f) && Z.testbit (f_val g) (i + f_lo f - f_lo g)) l
    = false).
  { induction 1; cbn [existsb]; auto. rewrite IHForall, orb_false_r.
    unfold disjoint in H. unfold in_field, f_width in *.
    destruct (_ && _) eqn:E2 at 1; [lia|reflexivity]. }
  apply Forall_app in Hd. destruct Hd as [Hd1 Hd2].
  rewrite (Hno l1), (Hno l2) by auto. cbn [orb andb]. apply orb_false_r.
Qed.
