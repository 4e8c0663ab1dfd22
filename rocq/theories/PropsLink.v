(** C22 exact patching, C23 no truncation, C24 idempotence, C25 undefined labels,
    C26 order independence of linking with the default linker. *)
From Coq Require Import Lia Permutation.
From Verif Require Import Py PyFacts Utils Tokenizer State Assembler SpecUtils UtilsFacts SpecParse ParseFacts
  SpecExec SpecLink LinkFacts DigitFacts Events ExecFacts Demo PropsUtils.
Local Open Scope Z_scope.

(** ** C22 *)

(** The image after a successful link: every byte is the old one after the changes of
    the references, in their order; length and the rest of the state stay. *)
Theorem C22_image : forall c s s', no_passes c -> Forall ref_ok (labels_addresses s) ->
  link c dummy_linker s = (s', Ok tt) ->
  exists chs, Forall2 (ref_changes (c_p c) (labels s)) (labels_addresses s) chs /\
    s' = set_assembled s (assembled s') /\ length (assembled s') = length (assembled s) /\
    forall i, nth_error (assembled s') i =
      option_map (final (Z.of_nat i) (concat chs)) (nth_error (assembled s) i).
Proof.
  intros c s s' NP RO H. apply link_iff in H; auto. destruct H as (chs & F & _ & E & L & N).
  exists chs. auto.
Qed.
Print Assumptions C22_image.

(** Conversely, references that resolve and lie within the output always link. *)
Theorem C22_links : forall c s chs, no_passes c -> Forall ref_ok (labels_addresses s) ->
  Forall2 (ref_changes (c_p c) (labels s)) (labels_addresses s) chs ->
  Forall (fun x => 0 <= fst x < zlen (assembled s)) (concat chs) ->
  exists s', link c dummy_linker s = (s', Ok tt).
Proof.
  intros c s chs NP RO F I.
  pose proof (iter_changes (c_p c) _ _ _ RO F) as E.
  rewrite link_eq by auto. unfold resolve_labels, bind, get. rewrite E, performs_eq.
  apply perform_iff in I. rewrite I. eexists. reflexivity.
Qed.
Print Assumptions C22_links.

Lemma final_app : forall i l1 l2 x, final i (l1 ++ l2) x = final i l2 (final i l1 x).
Proof. intros. unfold final. apply fold_left_app. Qed.
Lemma final_other : forall i l x, (forall k c, In (k, c) l -> k <> i) -> final i l x = x.
Proof.
  intros i l. induction l as [|[k c] l IH]; intros x H; auto. unfold final. cbn [fold_left].
  replace (k =? i) with false by (symmetry; apply Z.eqb_neq; eapply H; left; reflexivity).
  apply IH. intros; eapply H; right; eauto.
Qed.

Lemma field_changes_In : forall be a size v k c, In (k, c) (field_changes be a size v) ->
  a <= k < a + size.
Proof.
  intros be a size v k c H. unfold field_changes in H. apply in_map_iff in H.
  destruct H as (j & E & I). apply in_seq in I. injection E as <- _. destruct be; lia.
Qed.

Definition fields_only (refs : list (Z * labeldata)) : Prop :=
  Forall (fun r => ref_ok r /\ ld_hook (snd r) = None) refs.
Lemma fields_only_ok : forall refs, fields_only refs -> Forall ref_ok refs.
Proof. intros refs F. eapply Forall_impl; [|exact F]. cbn. tauto. Qed.

Lemma changes_covered : forall p lbls r ch k c, ld_hook (snd r) = None -> ref_changes p lbls r ch ->
  In (k, c) ch -> covers r k.
Proof.
  intros p lbls r ch k c H R I. destruct R; cbn [fst snd] in *; [|congruence].
  apply field_changes_In in I. exact I.
Qed.

Lemma image_outside : forall c s s' i, no_passes c -> Forall ref_ok (labels_addresses s) ->
  link c dummy_linker s = (s', Ok tt) ->
  (forall r ch k x, In r (labels_addresses s) -> ref_changes (c_p c) (labels s) r ch -> In (k, x) ch -> k <> Z.of_nat i) ->
  nth_error (assembled s') i = nth_error (assembled s) i.
Proof.
  intros c s s' i NP RO H O.
  destruct (C22_image c s s' NP RO H) as (chs & F & _ & _ & N). rewrite N.
  destruct (nth_error (assembled s) i); auto. cbn [option_map]. f_equal.
  apply final_other. intros k ch I. apply in_concat in I. destruct I as (l & I1 & I2).
  assert (X : exists r, In r (labels_addresses s) /\ ref_changes (c_p c) (labels s) r l).
  { clear - F I1. induction F; [contradiction|]. destruct I1 as [->|I1].
    - exists x. split; [left; auto|auto].
    - destruct (IHF I1) as (r & A & B). exists r. split; [right; auto|auto]. }
  destruct X as (r & A & B). apply (O r l k ch A B I2).
Qed.

(** Bytes outside all reference fields are unchanged. *)
Theorem C22_outside : forall c s s' i, no_passes c -> fields_only (labels_addresses s) ->
  link c dummy_linker s = (s', Ok tt) ->
  (forall r, In r (labels_addresses s) -> ~ covers r (Z.of_nat i)) ->
  nth_error (assembled s') i = nth_error (assembled s) i.
Proof.
  intros c s s' i NP FO H O. apply (image_outside c s s' i NP (fields_only_ok _ FO) H).
  intros r ch k x A B I ->. apply (O r A). eapply changes_covered; eauto.
  unfold fields_only in FO. rewrite Forall_forall in FO. apply FO in A. tauto.
Qed.
Print Assumptions C22_outside.

(** Reading a field byte by byte, least significant byte first. *)
Definition field_bytes (be : bool) (a size : Z) (out : bytes) : bytes :=
  map (fun j => nth (Z.to_nat (if be then a + (size - 1 - Z.of_nat j) else a + Z.of_nat j)) out 0)
      (seq 0 (Z.to_nat size)).

Lemma skipn_add : forall A n k (l : list A), skipn n (skipn k l) = skipn (k + n) l.
Proof.
  intros A n k. induction k; intros l; [reflexivity|]. destruct l as [|a l]; [destruct n; reflexivity|]. apply IHk.
Qed.
Lemma slice_nth : forall A (l : list A) a n d, 0 <= a -> a + Z.of_nat n <= zlen l ->
  slice a (Z.of_nat n) l = map (fun j => nth (Z.to_nat (a + Z.of_nat j)) l d) (seq 0 n).
Proof.
  intros A l a n d A0 L. unfold slice, zlen in *. rewrite Nat2Z.id.
  rewrite <- (Z2Nat.id a) by auto. set (k := Z.to_nat a). rewrite Nat2Z.id.
  assert (K : (k + n <= length l)%nat) by lia. clearbody k. clear - K.
  replace (map (fun j => nth (Z.to_nat (Z.of_nat k + Z.of_nat j)) l d) (seq 0 n))
    with (map (fun j => nth (k + j) l d) (seq 0 n)).
  2:{ apply map_ext. intros j. f_equal. lia. }
  revert k K. induction n; intros k K; [reflexivity|].
  rewrite seq_S, map_app. cbn [map plus]. rewrite <- IHn by lia.
  assert (X : (k + n < length l)%nat) by lia.
  destruct (skipn (k + n) l) as [|y r] eqn:E.
  { exfalso. assert (length (skipn (k + n) l) = 0%nat) by (rewrite E; auto). rewrite skipn_length in H. lia. }
  replace (nth (k + n) l d) with y.
  2:{ rewrite <- (firstn_skipn (k + n) l) at 1. rewrite app_nth2; rewrite firstn_length_le by lia; [|lia].
      rewrite Nat.sub_diag, E. reflexivity. }
  assert (E2 : skipn n (skipn k l) = y :: r) by (rewrite skipn_add; exact E).
  rewrite <- (firstn_skipn n (skipn k l)) at 1. rewrite E2.
  rewrite firstn_app. rewrite firstn_length_le by (rewrite skipn_length; lia).
  replace (S n - n)%nat with 1%nat by lia. change (firstn 1 (y :: r)) with [y]. rewrite firstn_firstn.
  replace (Nat.min (S n) n) with n by lia. reflexivity.
Qed.

Lemma rev_map_seq : forall A (f : nat -> A) n, rev (map f (seq 0 n)) = map (fun j => f (n - 1 - j)%nat) (seq 0 n).
Proof.
  intros A f n. induction n; [reflexivity|].
  rewrite seq_S at 1. rewrite map_app, rev_app_distr. cbn [map rev app plus].
  change (seq 0 (S n)) with (0%nat :: seq 1 n). cbn [map]. f_equal; [f_equal; lia|].
  rewrite IHn, <- seq_shift, map_map. apply map_ext_in. intros j I. apply in_seq in I. f_equal. lia.
Qed.

Lemma read_slice : forall be a size out, 0 <= a -> 0 <= size -> a + size <= zlen out ->
  read_value be (slice a size out) = le_value (field_bytes be a size out).
Proof.
  intros be a size out A S L. unfold field_bytes. rewrite <- (Z2Nat.id size) in * by auto.
  set (n := Z.to_nat size) in *. clearbody n. rewrite (slice_nth Z _ _ _ 0) by auto. rewrite Nat2Z.id.
  unfold read_value. destruct be; auto. rewrite rev_map_seq. f_equal. apply map_ext_in.
  intros j I. apply in_seq in I. f_equal. lia.
Qed.

Lemma byte_add_lor : forall x y, is_byte x -> x + 256 * y = Z.lor x (Z.shiftl y 8).
Proof.
  intros x y B. rewrite Z.shiftl_mul_pow2 by lia.
  assert (D : Z.land x (y * 2 ^ 8) = 0).
  2:{ rewrite <- Z.lxor_lor by auto. rewrite <- Z.add_nocarry_lxor by auto. change (2 ^ 8) with 256. lia. }
  apply Z.bits_inj'. intros i I. rewrite Z.land_spec, Z.bits_0.
  destruct (Z.ltb i 8) eqn:E.
  - apply Z.ltb_lt in E. rewrite Z.mul_pow2_bits_low by lia. apply andb_false_r.
  - apply Z.ltb_ge in E. rewrite (Z.bits_above_log2 x i); auto.
    + unfold is_byte in B. lia.
    + unfold is_byte in B. destruct (Z.eq_dec x 0) as [->|]; [cbn; lia|].
      apply Z.log2_lt_pow2; [lia|]. apply Z.lt_le_trans with (2 ^ 8); [lia|]. apply Z.pow_le_mono_r; lia.
Qed.
Lemma lor_is_byte : forall x y, is_byte x -> is_byte y -> is_byte (Z.lor x y).
Proof. intros. apply lor_byte; auto. Qed.

Lemma le_value_lor : forall A (f g : A -> Z) l, (forall x, In x l -> is_byte (f x)) ->
  (forall x, In x l -> is_byte (g x)) ->
  le_value (map (fun x => Z.lor (f x) (g x)) l) = Z.lor (le_value (map f l)) (le_value (map g l)).
Proof.
  intros A f g l. induction l as [|a l IH]; intros F G; [reflexivity|]. cbn [map le_value].
  rewrite IH by (intros; first [apply F|apply G]; right; auto).
  assert (FA : is_byte (f a)) by (apply F; left; auto). assert (GA : is_byte (g a)) by (apply G; left; auto).
  rewrite !byte_add_lor by (auto using lor_is_byte). rewrite Z.shiftl_lor.
  rewrite <- !Z.lor_assoc. f_equal. rewrite !Z.lor_assoc. f_equal. apply Z.lor_comm.
Qed.

Lemma le_value_bytes : forall v n, le_value (map (byte_of v) (seq 0 n)) = v mod 256 ^ Z.of_nat n.
Proof.
  intros v n. revert v. induction n; intros v.
  - cbn. rewrite Z.mod_1_r. reflexivity.
  - change (seq 0 (S n)) with (0%nat :: seq 1 n). cbn [map le_value]. rewrite <- seq_shift, map_map.
    replace (map (fun x => byte_of v (S x)) (seq 0 n)) with (map (byte_of (v / 256)) (seq 0 n)).
    2:{ apply map_ext. intros j. unfold byte_of. f_equal. rewrite Nat2Z.inj_succ, Z.pow_succ_r by lia.
        rewrite Z.div_div; [reflexivity|lia|apply Z.pow_pos_nonneg; lia]. }
    rewrite IHn. unfold byte_of. change (Z.of_nat 0) with 0. rewrite Z.pow_0_r, Z.div_1_r.
    rewrite Nat2Z.inj_succ, Z.pow_succ_r by lia.
    rewrite Z.rem_mul_r; [reflexivity|lia|apply Z.pow_pos_nonneg; lia].
Qed.

Lemma byte_of_byte : forall v j, is_byte (byte_of v j).
Proof. intros. unfold is_byte, byte_of. apply Z.mod_pos_bound. lia. Qed.

Lemma final_field : forall (be : bool) a size v j x, (j < Z.to_nat size)%nat ->
  final (if be then a + (size - 1 - Z.of_nat j) else a + Z.of_nat j) (field_changes be a size v) x =
  Z.lor x (byte_of v j).
Proof.
  intros be a size v j x J. unfold field_changes.
  replace (seq 0 (Z.to_nat size)) with (seq 0 j ++ j :: seq (S j) (Z.to_nat size - S j)).
  2:{ replace (Z.to_nat size) with (j + S (Z.to_nat size - S j))%nat at 2 by lia. rewrite seq_app. reflexivity. }
  rewrite map_app, final_app. cbn [map].
  rewrite (final_other _ (map _ (seq 0 j))).
  2:{ intros k c I. apply in_map_iff in I. destruct I as (j' & E & I). apply in_seq in I. injection E as <- _.
      destruct be; lia. }
  unfold final at 1. cbn [fold_left]. rewrite Z.eqb_refl. cbn [changed].
  apply final_other. intros k c I. apply in_map_iff in I. destruct I as (j' & E & I). apply in_seq in I.
  injection E as <- _. destruct be; lia.
Qed.

Lemma image_field : forall c s s' l1 a d l2, no_passes c -> Forall ref_ok (labels_addresses s) ->
  Forall is_byte (assembled s) -> 1 <= ld_size d -> ld_hook d = None ->
  labels_addresses s = l1 ++ (a, d) :: l2 ->
  (forall r ch i k, In r (l1 ++ l2) -> ref_changes (c_p c) (labels s) r ch -> In (i, k) ch ->
     ~ a <= i < a + ld_size d) ->
  link c dummy_linker s = (s', Ok tt) ->
  exists v, field_value (c_p c) (labels s) d v /\
    0 <= a /\ a + ld_size d <= zlen (assembled s) /\
    read_value (big_endian (c_p c)) (slice a (ld_size d) (assembled s')) =
      Z.lor (read_value (big_endian (c_p c)) (slice a (ld_size d) (assembled s)))
            (v mod 2 ^ (8 * ld_size d)).
Proof.
  intros c s s' l1 a d l2 NP RO BY SZ HK RE DJ H.
  apply link_iff in H; auto. destruct H as (chs & F & I & _ & L & N). rewrite RE in F.
  apply Forall2_app_inv_l in F. destruct F as (c1 & c2 & F1 & F2 & ->).
  inversion F2 as [|? ch ? c2' C F2']; subst. clear F2.
  inversion C as [? ? v HK' V | ? ? ? ? ? HK' V]; subst; [|congruence].
  exists v. split; auto.
  set (be := big_endian (c_p c)) in *.
  rewrite concat_app in I, N. cbn [concat] in I, N.
  assert (IR : forall j, (j < Z.to_nat (ld_size d))%nat ->
     0 <= (if be then a + (ld_size d - 1 - Z.of_nat j) else a + Z.of_nat j) < zlen (assembled s)).
  { intros j J. unfold inside in I. rewrite Forall_forall in I.
    assert (X : In (if be then a + (ld_size d - 1 - Z.of_nat j) else a + Z.of_nat j, OrByte (byte_of v j))
              (field_changes be a (ld_size d) v)).
    { unfold field_changes. apply in_map_iff. exists j. split; auto. apply in_seq. lia. }
    apply (I (_, OrByte (byte_of v j))). apply in_or_app. right. apply in_or_app. left. exact X. }
  assert (RG : 0 <= a /\ a + ld_size d <= zlen (assembled s)).
  { pose proof (IR 0%nat ltac:(lia)). pose proof (IR (Z.to_nat (ld_size d) - 1)%nat ltac:(lia)).
    destruct be; lia. }
  destruct RG as [R1 R2]. split; auto. split; auto.
  assert (L' : zlen (assembled s') = zlen (assembled s)) by (unfold zlen; rewrite L; auto).
  rewrite !read_slice by lia. unfold field_bytes.
  rewrite Z.pow_mul_r by lia. change (2 ^ 8) with 256.
  replace (256 ^ ld_size d) with (256 ^ Z.of_nat (Z.to_nat (ld_size d))) by (rewrite Z2Nat.id by lia; reflexivity). rewrite <- le_value_bytes.
  rewrite <- le_value_lor.
  - f_equal. apply map_ext_in. intros j J. apply in_seq in J.
    specialize (IR j ltac:(lia)).
    set (k := if be then a + (ld_size d - 1 - Z.of_nat j) else a + Z.of_nat j) in *.
    specialize (N (Z.to_nat k)). rewrite Z2Nat.id in N by lia.
    destruct (nth_error (assembled s) (Z.to_nat k)) as [x|] eqn:X.
    2:{ apply nth_error_None in X. unfold zlen in IR. lia. }
    rewrite (nth_error_nth _ _ 0 X). cbn [option_map] in N. rewrite (nth_error_nth _ _ 0 N).
    assert (OUT : forall l cs y, incl l (l1 ++ l2) -> Forall2 (ref_changes (c_p c) (labels s)) l cs ->
       final k (concat cs) y = y).
    { intros l cs y IN F. apply final_other. intros k' ch' I' ->. apply in_concat in I'.
      destruct I' as (cl & I1 & I2).
      assert (Y : exists r, In r l /\ ref_changes (c_p c) (labels s) r cl).
      { clear - F I1. induction F; [contradiction|]. destruct I1 as [->|I1].
        - exists x. split; [left; auto|auto].
        - destruct (IHF I1) as (r & A & B). exists r. split; [right; auto|auto]. }
      destruct Y as (r & A & B). apply (DJ r cl k ch' (IN _ A) B I2).
      unfold k. destruct be; lia. }
    rewrite !final_app.
    rewrite (OUT l1 c1) by (auto; apply incl_appl, incl_refl).
    rewrite (OUT l2 c2') by (auto; apply incl_appr, incl_refl).
    apply final_field. lia.
  - intros j J. apply in_seq in J. specialize (IR j ltac:(lia)). rewrite Forall_forall in BY. apply BY.
    apply nth_In. unfold zlen in IR. lia.
  - intros. apply byte_of_byte.
Qed.

(** A field that no other reference touches reads back, in the configured byte order,
    as its old content OR the value of the reference. *)
Theorem C22_field : forall c s s' l1 a d l2, no_passes c -> fields_only (labels_addresses s) ->
  Forall is_byte (assembled s) -> 1 <= ld_size d ->
  labels_addresses s = l1 ++ (a, d) :: l2 ->
  (forall r i, In r (l1 ++ l2) -> covers r i -> covers (a, d) i -> False) ->
  link c dummy_linker s = (s', Ok tt) ->
  exists v, field_value (c_p c) (labels s) d v /\
    0 <= a /\ a + ld_size d <= zlen (assembled s) /\
    read_value (big_endian (c_p c)) (slice a (ld_size d) (assembled s')) =
      Z.lor (read_value (big_endian (c_p c)) (slice a (ld_size d) (assembled s)))
            (v mod 2 ^ (8 * ld_size d)).
Proof.
  intros c s s' l1 a d l2 NP FO BY SZ RE DJ H.
  assert (FI : forall r, In r (labels_addresses s) -> ld_hook (snd r) = None).
  { unfold fields_only in FO. rewrite Forall_forall in FO. intros r I. apply FO. exact I. }
  apply (image_field c s s' l1 a d l2); auto.
  - apply fields_only_ok. exact FO.
  - apply (FI (a, d)). rewrite RE. apply in_or_app. right. left. reflexivity.
  - intros r ch i k I R IC C. apply (DJ r i I).
    + eapply changes_covered; eauto. apply FI. rewrite RE. apply in_app_or in I. apply in_or_app. cbn [In]. tauto.
    + exact C.
Qed.
Print Assumptions C22_field.

Lemma text_changes_In : forall t a k c, In (k, c) (text_changes a t) -> a <= k < a + zlen t.
Proof.
  induction t as [|x t IH]; intros a k c I; [contradiction|]. rewrite zlen_cons. pose proof (zlen_nonneg t).
  destruct I as [I|I]; [injection I as <- _; lia|]. apply IH in I. lia.
Qed.
Lemma final_text : forall t a j x, (j < length t)%nat ->
  final (a + Z.of_nat j) (text_changes a t) x = nth j (map ord t) 0.
Proof.
  induction t as [|ch t IH]; intros a j x J; cbn [length] in J; [lia|].
  cbn [text_changes]. unfold final. cbn [fold_left map nth].
  destruct j as [|j].
  - replace (a =? a + Z.of_nat 0) with true by (symmetry; apply Z.eqb_eq; lia). cbn [changed].
    apply (final_other (a + Z.of_nat 0) (text_changes (a + 1) t)). intros k c I.
    apply text_changes_In in I. lia.
  - replace (a =? a + Z.of_nat (S j)) with false by (symmetry; apply Z.eqb_neq; lia).
    replace (a + Z.of_nat (S j)) with ((a + 1) + Z.of_nat j) by lia. apply IH. lia.
Qed.

(** A label written as decimal text (.db_to_ascii, .dw_to_ascii) whose value has at most
    w digits becomes exactly w ASCII digits denoting the value, when nothing else
    touches those bytes. *)
Theorem C22_text : forall c s s' l1 a d l2 w abs v, no_passes c -> Forall ref_ok (labels_addresses s) ->
  labels_addresses s = l1 ++ (a, d) :: l2 -> ld_hook d = Some (to_str_hook w) -> (1 <= w)%nat ->
  target (c_p c) (labels s) d abs v -> 0 <= v < 10 ^ Z.of_nat w ->
  (forall r ch i k, In r (l1 ++ l2) -> ref_changes (c_p c) (labels s) r ch -> In (i, k) ch ->
     ~ a <= i < a + Z.of_nat w) ->
  link c dummy_linker s = (s', Ok tt) ->
  Forall ascii_digit (slice a (Z.of_nat w) (assembled s')) /\
  length (slice a (Z.of_nat w) (assembled s')) = w /\
  decimal (slice a (Z.of_nat w) (assembled s')) = v.
Proof.
  intros c s s' l1 a d l2 w abs v NP RO RE HK W T V DJ H.
  apply link_iff in H; auto. destruct H as (chs & F & I & _ & L & N). rewrite RE in F.
  apply Forall2_app_inv_l in F. destruct F as (c1 & c2 & F1 & F2 & ->).
  inversion F2 as [|? ch ? c2' C F2']; subst. clear F2.
  (* the changes of this reference, whatever the hook is called *)
  assert (PC : perform (assembled s) (concat (c1 ++ ch :: c2')) = (assembled s', None) /\
     forall out, perform out ch = perform out (text_changes a (format_0d w v))).
  { split.
    - apply perform_iff in I. destruct (perform (assembled s) (concat (c1 ++ ch :: c2'))) as [o e] eqn:P.
      cbn [snd] in I. subst e. f_equal. apply perform_spec in P. destruct P as [_ P].
      apply list_eq_nth. intros i. rewrite P, N. reflexivity.
    - intros out.
      assert (RA : ref_ok (a, d)).
      { rewrite RE in RO. rewrite Forall_forall in RO. apply RO. apply in_or_app. right. left. auto. }
      pose proof (resolve_changes (c_p c) (set_assembled s out) (a, d) ch RA C) as E1.
      pose proof (resolve_changes (c_p c) (set_assembled s out) (a, d) _ RA
        (rc_text (c_p c) (labels s) a d w abs v HK T)) as E2.
      rewrite E1 in E2. rewrite !performs_eq in E2. cbn [assembled set_assembled] in E2.
      injection E2 as E2 E3. rewrite (surjective_pairing (perform out ch)), (surjective_pairing (perform out (text_changes a (format_0d w v)))).
      rewrite E2. f_equal.
      destruct (snd (perform out ch)), (snd (perform out (text_changes a (format_0d w v)))); congruence. }
  destruct PC as [P EQ].
  rewrite concat_app in P. cbn [concat] in P. rewrite perform_app in P.
  destruct (perform (assembled s) (concat c1)) as [o1 [e|]] eqn:P1; [discriminate|].
  rewrite perform_app, EQ in P.
  destruct (perform o1 (text_changes a (format_0d w v))) as [o2 [e|]] eqn:P2; [discriminate|].
  destruct (format_0d_spec w v W V) as (X1 & X2 & X3).
  assert (IT : inside (zlen o1) (text_changes a (format_0d w v))) by (apply perform_iff; rewrite P2; auto).
  apply perform_spec in P1, P2, P. destruct P1 as [L1 N1], P2 as [L2 N2], P as [L3 N3].
  assert (RG : 0 <= a /\ a + Z.of_nat w <= zlen (assembled s')).
  { assert (G : forall t a n, inside n (text_changes a t) -> t <> [] -> 0 <= a /\ a + zlen t <= n).
    { clear. induction t as [|x t IH]; intros a n H NE; [congruence|]. rewrite zlen_cons.
      inversion H; subst. cbn [fst] in *. destruct t; [unfold zlen; cbn [length]; lia|].
      apply IH in H3; [lia|discriminate]. }
    apply G in IT; [|intros Q; rewrite Q in X1; cbn in X1; lia].
    unfold zlen in *. rewrite L3, L2. lia. }
  assert (S : slice a (Z.of_nat w) (assembled s') = map ord (format_0d w v)).
  { rewrite (slice_nth Z _ _ _ 0) by lia.
    replace (map ord (format_0d w v)) with (map (fun j => nth j (map ord (format_0d w v)) 0) (seq 0 w)).
    2:{ assert (Y : forall l : bytes, map (fun j => nth j l 0) (seq 0 (length l)) = l).
        { clear. induction l; [reflexivity|]. cbn [length seq map nth]. f_equal.
          rewrite <- seq_shift, map_map. exact IHl. }
        specialize (Y (map ord (format_0d w v))). rewrite map_length, X1 in Y. exact Y. }
    apply map_ext_in. intros j J. apply in_seq in J.
    set (k := Z.to_nat (a + Z.of_nat j)).
    assert (K : Z.of_nat k = a + Z.of_nat j) by (unfold k; lia).
    destruct (nth_error o1 k) as [x|] eqn:X.
    2:{ apply nth_error_None in X. unfold zlen in RG. lia. }
    specialize (N2 k). rewrite X in N2. cbn [option_map] in N2. rewrite K in N2.
    rewrite final_text in N2 by lia. specialize (N3 k). rewrite N2 in N3. cbn [option_map] in N3.
    rewrite (nth_error_nth _ _ 0 N3). apply final_other. intros k' ck Ik ->.
    apply in_concat in Ik. destruct Ik as (cl & I1 & I2).
    assert (Y : exists r, In r l2 /\ ref_changes (c_p c) (labels s) r cl).
    { clear - F2' I1. induction F2'; [contradiction|]. destruct I1 as [->|I1].
      - exists x. split; [left; auto|auto].
      - destruct (IHF2' I1) as (r & A & B). exists r. split; [right; auto|auto]. }
    destruct Y as (r & A & B). eapply (DJ r cl _ ck); eauto; [apply in_or_app; auto|]. lia. }
  rewrite S. split; auto. split; auto. rewrite map_length. exact X1.
Qed.
Print Assumptions C22_text.

Lemma demo_no_passes : no_passes demo.
Proof. split; reflexivity. Qed.

Example C22_example :
  let s := demo_state [".org $1000"; "ldi x+1"; "bra x"; "nop"; "x:"]%string in
  no_passes demo /\ fields_only (labels_addresses s) /\
  assembled s = [1; 0; 0; 2; 0; 234] /\
  assembled (fst (link demo dummy_linker s)) = [1; 7; 16; 2; 1; 234] /\
  snd (link demo dummy_linker s) = Ok tt /\
  map fst (labels_addresses s) = [1; 4] /\
  assembled (fst (link demo dummy_linker (demo_state [".org $1000"; "nop"; "x:"; ".dw_to_ascii x"]%string))) =
    [234; 48; 52; 48; 57; 55].
Proof.
  cbv zeta. split; [exact demo_no_passes|]. split; [|repeat (split; [vm_compute; reflexivity|]); vm_compute; reflexivity].
  assert (E : exists d1 d2, labels_addresses (demo_state [".org $1000"; "ldi x+1"; "bra x"; "nop"; "x:"]%string) =
     [(1, d1); (4, d2)] /\ ref_ok (1, d1) /\ ref_ok (4, d2) /\ ld_hook d1 = None /\ ld_hook d2 = None).
  { eexists. eexists. split; [vm_compute; reflexivity|]. cbv [ref_ok snd ld_bits_size ld_alignment ld_bits ld_hook].
    split; [|split; [|split; reflexivity]]; (split; [lia|]); (split; [lia|]); (split; [discriminate|]); left; reflexivity. }
  destruct E as (d1 & d2 & -> & R1 & R2 & H1 & H2).
  constructor; [auto|]. constructor; [auto|]. constructor.
Qed.

(** Text wider than reserved overwrites the following bytes. *)
Theorem C22_text_width_refuted : exists text, text = lines [".org 1000"; "x:"; ".db_to_ascii x"; "nop"]%string /\
  assembled (fst ((assemble demo 5 text ;; link demo dummy_linker) (init_st []))) = [49; 48; 48; 48].
Proof. eexists. split; [reflexivity|]. vm_compute. reflexivity. Qed.

(** ** C23 *)

(** After a successful link every reference with a field has a defined target that is
    aligned, in range, and fits its bit field. *)
Theorem C23_fits : forall c s s' a d, no_passes c -> Forall ref_ok (labels_addresses s) ->
  link c dummy_linker s = (s', Ok tt) -> In (a, d) (labels_addresses s) -> ld_hook d = None ->
  exists abs v, target (c_p c) (labels s) d abs v /\ (ld_alignment d | abs) /\
    (ld_relative d = 0 -> 0 <= v < 2 ^ ld_bits_size d) /\
    (ld_relative d <> 0 -> - 2 ^ (ld_bits_size d - 1) <= v < 2 ^ (ld_bits_size d - 1)) /\
    forall b, ld_bits d = Some b ->
      field_ok (b, match ld_filter d with Some f => f v | None => v end).
Proof.
  intros c s s' a d NP RO H I HK. apply link_iff in H; auto. destruct H as (chs & F & _).
  assert (X : exists ch, ref_changes (c_p c) (labels s) (a, d) ch).
  { clear - F I. induction F; [contradiction|]. destruct I as [->|I]; eauto. }
  destruct X as [ch C]. inversion C as [? ? v HK' V | ? ? ? ? ? HK' V]; subst; [|congruence].
  destruct V as (abs & t & T & A & R & E). exists abs, t. split; auto. split; auto.
  unfold in_range in R. split; [|split].
  - intros Z. rewrite Z in R. exact R.
  - intros Z. apply Z.eqb_neq in Z. rewrite Z in R. exact R.
  - intros b B. unfold encoded in E. cbv zeta in E. rewrite B in E. tauto.
Qed.
Print Assumptions C23_fits.

(** The first reference with a fault stops linking with the corresponding error. *)
Theorem C23_faults : forall c s l1 chs a d l2 e, no_passes c -> Forall ref_ok (labels_addresses s) ->
  labels_addresses s = l1 ++ (a, d) :: l2 ->
  Forall2 (ref_changes (c_p c) (labels s)) l1 chs ->
  Forall (fun x => 0 <= fst x < zlen (assembled s)) (concat chs) ->
  fault (c_p c) (labels s) d e ->
  exists s', link c dummy_linker s = (s', Err (AExc e)).
Proof.
  intros c s l1 chs a d l2 e NP RO RE F I X. rewrite link_eq by auto. unfold resolve_labels, bind at 1, get.
  rewrite RE in *. apply Forall_app in RO. destruct RO as [RO1 RO2]. inversion RO2; subst.
  pose proof (iter_changes _ _ _ _ RO1 F) as E.
  assert (G : forall A (f : A -> M unit) x l1 l2 s s1, iter f l1 s = (s1, Ok tt) ->
     iter f (l1 ++ x :: l2) s = bind (f x) (fun _ => iter f l2) s1).
  { clear. induction l1; intros l2 s s1 H; cbn [app iter] in *.
    - injection H as ->. reflexivity.
    - unfold bind in *. destruct (f a s) as [s2 [[]|e]]; [|discriminate]. eapply IHl1; eauto. }
  rewrite performs_eq in E. apply perform_iff in I. rewrite I in E.
  rewrite (G _ _ _ _ _ _ _ E). unfold bind. rewrite (resolve_fault _ _ _ _ e).
  - eexists. reflexivity.
  - exact X.
  - apply H1.
Qed.
Print Assumptions C23_faults.

Example C23_example :
  let run l := snd ((assemble demo 5 (lines l) ;; link demo dummy_linker) (init_st [])) in
  run [".org $ffff"; "x:"; "ldi x"]%string = Ok tt /\
  run [".org $10000"; "x:"; "ldi x"]%string = Err (AExc (NotInBitRange 65536 16 (Some #"x"))) /\
  run ["x:"; ".fill 126"; "bra x"]%string = Ok tt /\
  run ["x:"; ".fill 127"; "bra x"]%string = Err (AExc (NotInBitRange (-129) 8 (Some #"x"))) /\
  run ["x:"; "ldi x-1"]%string = Err (AExc (OnlyForwardAddressesAllowed #"x-1" (-1))).
Proof. cbv zeta. repeat (split; [vm_compute; reflexivity|]). vm_compute. reflexivity. Qed.

(** ** C24 *)

Lemma final_shape : forall i l, exists k m, forall x, final i l x = match k with None => Z.lor x m | Some v => v end.
Proof.
  intros i l. induction l as [|[a c] l IH] using rev_ind.
  - exists None, 0. intros x. cbn. symmetry. apply Z.lor_0_r.
  - destruct IH as (k & m & IH).
    destruct (a =? i) eqn:E.
    + destruct c as [v|v].
      * destruct k as [w|].
        -- exists (Some (Z.lor w v)), 0. intros x. rewrite final_app, IH. unfold final. cbn. rewrite E. reflexivity.
        -- exists None, (Z.lor m v). intros x. rewrite final_app, IH. unfold final. cbn. rewrite E. cbn.
           symmetry. apply Z.lor_assoc.
      * exists (Some v), 0. intros x. rewrite final_app. unfold final at 1. cbn. rewrite E. reflexivity.
    + exists k, m. intros x. rewrite final_app, IH. unfold final. cbn. rewrite E. reflexivity.
Qed.
Lemma final_idem : forall i l x, final i l (final i l x) = final i l x.
Proof.
  intros. destruct (final_shape i l) as (k & m & H). rewrite !H. destruct k; auto.
  rewrite <- Z.lor_assoc, Z.lor_diag. reflexivity.
Qed.

(** Linking a linked image again succeeds and changes nothing at all. *)
Theorem C24_idempotent : forall c s s', no_passes c -> Forall ref_ok (labels_addresses s) ->
  link c dummy_linker s = (s', Ok tt) -> link c dummy_linker s' = (s', Ok tt).
Proof.
  intros c s s' NP RO H. apply link_iff in H; auto. destruct H as (chs & F & I & E & L & N).
  assert (LB : labels s' = labels s) by (rewrite E; reflexivity).
  assert (RF : labels_addresses s' = labels_addresses s) by (rewrite E; reflexivity).
  apply link_iff; auto; [rewrite RF; auto|]. exists chs. rewrite LB, RF. split; auto.
  split; [unfold zlen in *; rewrite L; auto|]. split; [destruct s'; reflexivity|]. split; auto.
  intros i. rewrite N. destruct (nth_error (assembled s) i); auto. cbn [option_map]. rewrite final_idem. auto.
Qed.
Print Assumptions C24_idempotent.

Example C24_example :
  let s := demo_state [".org $1000"; "ldi x+1"; "bra x"; ".dw_to_ascii x"; "x:"]%string in
  let s1 := fst (link demo dummy_linker s) in
  snd (link demo dummy_linker s) = Ok tt /\ assembled s <> assembled s1 /\
  assembled (fst (link demo dummy_linker s1)) = assembled s1.
Proof.
  cbv zeta. split; [vm_compute; reflexivity|]. split; [vm_compute; discriminate|]. vm_compute. reflexivity.
Qed.

(** ** C25 *)

(** If a reference, possibly with selectors or arithmetic, depends on an undefined name,
    link does not succeed. *)
Theorem C25_reported : forall c s a d name, no_passes c -> Forall ref_ok (labels_addresses s) ->
  In (a, d) (labels_addresses s) -> head_of (ld_label d) name -> dget str_eqb (labels s) name = None ->
  snd (link c dummy_linker s) <> Ok tt.
Proof.
  intros c s a d name NP RO I HD U H.
  destruct (link c dummy_linker s) as [s' r] eqn:E. cbn [snd] in H. subst r.
  apply link_iff in E; auto. destruct E as (chs & F & _).
  assert (X : exists ch, ref_changes (c_p c) (labels s) (a, d) ch).
  { clear - F I. induction F; [contradiction|]. destruct I as [->|I]; eauto. }
  destruct X as [ch C]. pose proof (head_none (c_p c) _ _ _ HD U) as N.
  inversion C as [? ? v HK' V | ? ? ? ? ? HK' V]; subst.
  - destruct V as (abs & t & T & _). inversion T; congruence.
  - inversion V; congruence.
Qed.
Print Assumptions C25_reported.

(** If it is the first offending one, the error is UnknownLabel with the operand. *)
Theorem C25_error : forall c s l1 chs a d l2 name, no_passes c -> Forall ref_ok (labels_addresses s) ->
  labels_addresses s = l1 ++ (a, d) :: l2 ->
  Forall2 (ref_changes (c_p c) (labels s)) l1 chs ->
  Forall (fun x => 0 <= fst x < zlen (assembled s)) (concat chs) ->
  head_of (ld_label d) name -> dget str_eqb (labels s) name = None ->
  exists s', link c dummy_linker s = (s', Err (AExc (UnknownLabel (ld_label d)))).
Proof. intros. eapply C23_faults; eauto. eapply f_unknown; eauto. Qed.
Print Assumptions C25_error.

(** Success means every referenced name is defined. *)
Theorem C25_defined : forall c s s' a d name, no_passes c -> Forall ref_ok (labels_addresses s) ->
  link c dummy_linker s = (s', Ok tt) -> In (a, d) (labels_addresses s) -> head_of (ld_label d) name ->
  exists l, dget str_eqb (labels s) name = Some l.
Proof.
  intros c s s' a d name NP RO H I HD.
  destruct (dget str_eqb (labels s) name) as [l|] eqn:E; [eauto|].
  exfalso. eapply (C25_reported c s); eauto. rewrite H. reflexivity.
Qed.
Print Assumptions C25_defined.

Example C25_example :
  let s := demo_state ["nop"; "ldi <foo+1"]%string in
  no_passes demo /\ head_of #"<foo+1" #"foo" /\ dget str_eqb (labels s) #"foo" = None /\
  snd (link demo dummy_linker s) = Err (AExc (UnknownLabel #"<foo+1")).
Proof.
  cbv zeta. split; [exact demo_no_passes|]. split; [|split; vm_compute; reflexivity].
  exists #"<", #"+1". split; [reflexivity|]. split; [constructor; [left; reflexivity|constructor]|].
  split; [intros x r X; injection X as <- _; split; discriminate|].
  split; [repeat (constructor; [intros [H|[H|[H|[H|[H|[H|[]]]]]]]; discriminate|]); constructor|].
  split; [discriminate|]. right. exists "+"%char, #"1". split; [reflexivity|]. left. reflexivity.
Qed.

(** ** C26 *)

Lemma target_addresses : forall p l1 l2 d a v, same_addresses l1 l2 ->
  target p l1 d a v -> target p l2 d a v.
Proof.
  intros p l1 l2 d a v S T.
  assert (A : label_absolute p l2 (ld_label d) = label_absolute p l1 (ld_label d))
    by (symmetry; apply (label_addresses p l1 l2 (ld_label d) 0 S)).
  pose proof (label_addresses p l1 l2 (ld_label d) (ld_relative d) S) as R.
  destruct T; [apply tg_absolute|apply tg_relative]; congruence.
Qed.
Lemma changes_addresses : forall p l1 l2 r ch, same_addresses l1 l2 ->
  ref_changes p l1 r ch -> ref_changes p l2 r ch.
Proof.
  intros p l1 l2 r ch S C. destruct C as [a d v H V | a d w abs v H T].
  - apply rc_field; auto. destruct V as (abs & t & T & X). exists abs, t. split; auto.
    eapply target_addresses; eauto.
  - eapply rc_text; eauto. eapply target_addresses; eauto.
Qed.

Definition or_only (l : list (Z * change)) : Prop := Forall (fun x => exists v, snd x = OrByte v) l.
Lemma final_perm : forall i l1 l2, Permutation l1 l2 -> or_only l1 -> forall x, final i l1 x = final i l2 x.
Proof.
  intros i l1 l2 P. induction P as [|[k c] a b P IH|[k1 c1] [k2 c2] a|a b d P1 IH1 P2 IH2]; intros O z; auto.
  - inversion O; subst. unfold final. cbn [fold_left]. apply IH. auto.
  - inversion O as [|? ? [v1 E1] O']; subst. inversion O' as [|? ? [v2 E2] _]; subst. cbn [snd] in *. subst.
    unfold final. cbn [fold_left]. f_equal.
    destruct (k1 =? i), (k2 =? i); cbn [changed]; auto.
    rewrite <- !Z.lor_assoc. f_equal. apply Z.lor_comm.
  - rewrite IH1 by auto. apply IH2. eapply Permutation_Forall; eauto.
Qed.

Lemma concat_perm : forall A (l1 l2 : list (list A)), Permutation l1 l2 -> Permutation (concat l1) (concat l2).
Proof.
  intros A l1 l2 P. induction P; cbn [concat]; auto.
  - apply Permutation_app_head; auto.
  - rewrite !app_assoc. apply Permutation_app_tail. apply Permutation_app_comm.
  - eapply Permutation_trans; eauto.
Qed.

(** The image depends on the reference table only as a set of references and on the
    label table only through the addresses: neither the order in which references were
    recorded nor the order in which labels were defined matters. *)
Theorem C26_order : forall c s1 s2 s1', no_passes c -> fields_only (labels_addresses s1) ->
  assembled s2 = assembled s1 -> same_addresses (labels s1) (labels s2) ->
  Permutation (labels_addresses s1) (labels_addresses s2) ->
  link c dummy_linker s1 = (s1', Ok tt) ->
  exists s2', link c dummy_linker s2 = (s2', Ok tt) /\ assembled s2' = assembled s1'.
Proof.
  intros c s1 s2 s1' NP FO A SA PM H. pose proof (fields_only_ok _ FO) as RO.
  assert (RO2 : Forall ref_ok (labels_addresses s2)) by (eapply Permutation_Forall; eauto).
  apply link_iff in H; auto. destruct H as (chs & F & I & E & L & N).
  assert (OO : or_only (concat chs)).
  { clear - F FO. unfold fields_only in FO. induction F; [constructor|]. inversion FO; subst. cbn [concat].
    apply Forall_app. split; [|apply IHF; auto]. destruct H as [a d v HK V|a d w abs v HK T].
    - unfold field_changes. apply Forall_forall. intros y Y. apply in_map_iff in Y. destruct Y as (j & <- & _).
      eexists. reflexivity.
    - destruct H2. cbn [snd] in *. congruence. }
  destruct (Permutation_Forall2 PM F) as (chs2 & P2 & F2).
  assert (F2' : Forall2 (ref_changes (c_p c) (labels s2)) (labels_addresses s2) chs2).
  { clear - F2 SA. induction F2; constructor; auto. eapply changes_addresses; eauto. }
  apply concat_perm in P2.
  exists (set_assembled s2 (assembled s1')). split; [|reflexivity].
  apply link_iff; auto. exists chs2. split; auto. rewrite A.
  split; [eapply Permutation_Forall; eauto|]. split; [reflexivity|]. split; [exact L|].
  intros i. cbn [assembled set_assembled]. rewrite N. destruct (nth_error (assembled s1) i); auto.
  cbn [option_map]. f_equal. apply final_perm; auto.
Qed.
Print Assumptions C26_order.

(** Whether an operand is recorded as a reference does not depend on the labels known so
    far: an operand that starts with a name always is. *)
Theorem C26_recorded : forall p l1 l2 t bits sg,
  parse_integer p l1 t bits sg = Ok None <-> parse_integer p l2 t bits sg = Ok None.
Proof.
  assert (G : forall p l1 l2 t bits sg, parse_integer p l1 t bits sg = Ok None -> parse_integer p l2 t bits sg = Ok None).
  { intros p l1 l2 t bits sg. unfold parse_integer.
    generalize (apply_math_formula p l1 math_fuel), (apply_math_formula p l2 math_fuel).
    intros f1 f2 H. unfold parse_integer_with in *.
    destruct (get_math_formula t) as [[n sel] post].
    destruct (internal_parse_integer p n) as [[[v|] dec]|e]; cbn [rbind] in *; auto.
    destruct (f1 sel post v) as [w|]; cbn [rbind] in H; [|discriminate].
    destruct (check_integer w dec bits sg); discriminate. }
  intros; split; apply G.
Qed.
Print Assumptions C26_recorded.

Example C26_example :
  let s1 := demo_state ["x:"; "ldi x"; "ldi y"; "y:"]%string in
  let s2 := set_labels_addresses (set_labels s1 (rev (labels s1))) (rev (labels_addresses s1)) in
  same_addresses (labels s1) (labels s2) /\
  assembled (fst (link demo dummy_linker s1)) = [1; 0; 0; 1; 6; 0] /\
  assembled (fst (link demo dummy_linker s2)) = [1; 0; 0; 1; 6; 0] /\
  parse_integer demo_p (labels s1) #"y+1" 16 false = Ok None.
Proof.
  cbv zeta. split; [|repeat (split; [vm_compute; reflexivity|]); vm_compute; reflexivity].
  intros name.
  assert (E : labels (demo_state ["x:"; "ldi x"; "ldi y"; "y:"]%string) =
    [(#"x", MkLabel 0 0 None); (#"y", MkLabel 6 0 None)]) by (vm_compute; reflexivity).
  cbn [set_labels_addresses set_labels labels]. rewrite E. cbn [rev app dget].
  destruct (str_eqb name #"x") eqn:X, (str_eqb name #"y") eqn:Y; try reflexivity; try exact I.
  apply str_eqb_spec in X, Y. subst. discriminate Y.
Qed.

(** An operand that starts with a number and uses a label in its arithmetic is evaluated
    at once: it works after the definition of the label and fails before. *)
Theorem C26_numeric_head_refuted :
  (exists s', demo_run ["x:"; ".dw 5+x"]%string = (s', Ok tt)) /\
  snd (demo_run [".dw 5+x"; "x:"]%string) = Err (AExc (UnknownLabel #"x")).
Proof. split; [eexists|]; vm_compute; reflexivity. Qed.
Print Assumptions C22_text_width_refuted.
Print Assumptions C26_numeric_head_refuted.
