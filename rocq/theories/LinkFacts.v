(** Linking with the default linker: it succeeds exactly when every reference resolves
    and its field lies in the output, and then performs exactly the specified changes. *)
From Coq Require Import Lia Permutation.
From Verif Require Import Py PyFacts Utils State Assembler SpecUtils UtilsFacts SpecParse ParseFacts SpecLink
  Events ExecFacts PropsUtils.
Local Open Scope Z_scope.

Lemma list_eq_nth : forall A (a b : list A), (forall i, nth_error a i = nth_error b i) -> a = b.
Proof.
  induction a as [|x a IH]; intros [|y b] H; auto.
  - specialize (H 0%nat). discriminate.
  - specialize (H 0%nat). discriminate.
  - f_equal; [specialize (H 0%nat); cbn in H; congruence|]. apply IH. intros i. apply (H (S i)).
Qed.

(** ** Performing changes *)

Fixpoint perform (out : bytes) (l : list (Z * change)) : bytes * option exc :=
  match l with
  | [] => (out, None)
  | (k, c) :: t =>
      match at_index out k with
      | Err e => (out, Some e)
      | Ok old =>
          match set_index out k (changed old c) with
          | Err e => (out, Some e)
          | Ok out' => perform out' t
          end
      end
  end.
Definition inside (n : Z) (l : list (Z * change)) : Prop := Forall (fun x => 0 <= fst x < n) l.
Definition performs (l : list (Z * change)) : M unit :=
  fun s => let '(out, e) := perform (assembled s) l in
           (set_assembled s out, match e with None => Ok tt | Some e => Err e end).

Lemma nth_replace : forall A n (v : A) l i, (n < length l)%nat ->
  nth_error (replace_nth n v l) i = if Nat.eqb i n then Some v else nth_error l i.
Proof.
  induction n; intros v [|a l] [|i] L; cbn [replace_nth nth_error length Nat.eqb] in *; auto; try lia.
  apply IHn. lia.
Qed.
Lemma replace_length : forall A n (v : A) l, length (replace_nth n v l) = length l.
Proof. induction n; intros v [|a l]; cbn; auto. Qed.

Lemma at_index_inv : forall (l : bytes) k x, at_index l k = Ok x ->
  0 <= k < zlen l /\ nth_error l (Z.to_nat k) = Some x.
Proof.
  intros l k x H. unfold at_index in H. destruct (k <? 0) eqn:K; [discriminate|]. apply Z.ltb_ge in K.
  destruct (nth_error l (Z.to_nat k)) eqn:E; [|discriminate]. injection H as <-.
  split; auto. assert (Z.to_nat k < length l)%nat by (apply nth_error_Some; congruence). unfold zlen. lia.
Qed.
Lemma at_index_ok : forall (l : bytes) k, 0 <= k < zlen l -> exists x, at_index l k = Ok x.
Proof.
  intros l k H. unfold at_index. replace (k <? 0) with false by (symmetry; apply Z.ltb_ge; lia).
  destruct (nth_error l (Z.to_nat k)) eqn:E; eauto. apply nth_error_None in E. unfold zlen in H. lia.
Qed.
Lemma set_index_ok : forall (l : bytes) k v, 0 <= k < zlen l ->
  set_index l k v = Ok (replace_nth (Z.to_nat k) v l).
Proof.
  intros l k v H. unfold set_index.
  replace ((k <? 0) || (zlen l <=? k)) with false; auto.
  symmetry. apply orb_false_iff. split; [apply Z.ltb_ge|apply Z.leb_gt]; lia.
Qed.

Lemma perform_iff : forall l out, snd (perform out l) = None <-> inside (zlen out) l.
Proof.
  induction l as [|[k c] l IH]; intros out; cbn [perform].
  - split; [constructor|reflexivity].
  - split.
    + destruct (at_index out k) as [old|e] eqn:A; [|discriminate].
      apply at_index_inv in A. destruct A as [R A]. rewrite set_index_ok by auto. intros H.
      apply IH in H. constructor; [exact R|]. unfold zlen in H. rewrite replace_length in H. exact H.
    + intros H. inversion H; subst. cbn [fst] in *.
      destruct (at_index_ok out k) as [old A]; auto. rewrite A. rewrite set_index_ok by auto.
      apply IH. unfold zlen. rewrite replace_length. auto.
Qed.

Lemma perform_spec : forall l out out', perform out l = (out', None) ->
  length out' = length out /\
  forall i, nth_error out' i = option_map (final (Z.of_nat i) l) (nth_error out i).
Proof.
  induction l as [|[k c] l IH]; intros out out' H; cbn [perform] in H.
  - injection H as <-. split; auto. intros i. unfold final. cbn. destruct (nth_error out i); reflexivity.
  - destruct (at_index out k) as [old|e] eqn:A; [|discriminate].
    apply at_index_inv in A. destruct A as [R A]. rewrite set_index_ok in H by auto.
    apply IH in H. rewrite replace_length in H. destruct H as [L H]. split; auto.
    intros i. rewrite H. rewrite nth_replace by (unfold zlen in R; lia).
    unfold final. cbn [fold_left].
    destruct (Nat.eqb i (Z.to_nat k)) eqn:E.
    + apply Nat.eqb_eq in E. subst i. rewrite A. rewrite Z2Nat.id by lia. rewrite Z.eqb_refl. reflexivity.
    + apply Nat.eqb_neq in E. replace (k =? Z.of_nat i) with false by (symmetry; apply Z.eqb_neq; lia).
      destruct (nth_error out i); reflexivity.
Qed.

Lemma perform_app : forall l1 l2 out, perform out (l1 ++ l2) =
  match perform out l1 with (out', None) => perform out' l2 | r => r end.
Proof.
  induction l1 as [|[k c] l1 IH]; intros l2 out; cbn [app perform]; auto.
  destruct (at_index out k); auto. destruct (set_index out k _); auto.
Qed.

(** ** The loops of the model *)

Lemma land255 : forall v j, Z.land (Z.shiftr v (8 * Z.of_nat j)) 0xFF = byte_of v j.
Proof.
  intros v j. unfold byte_of. rewrite Z.shiftr_div_pow2 by lia.
  change 0xFF with (Z.ones 8). rewrite Z.land_ones by lia.
  rewrite Z.pow_mul_r by lia. reflexivity.
Qed.

Lemma patch_performs : forall be a size v n j s,
  patch_loop be a size v (Z.of_nat j) n s =
  performs (map (fun j => (if be then a + (size - 1 - Z.of_nat j) else a + Z.of_nat j, OrByte (byte_of v j)))
       (seq j n)) s.
Proof.
  induction n; intros j s; cbn [patch_loop seq map]; unfold performs; cbn [perform].
  - destruct s; reflexivity.
  - rewrite land255. unfold bind, get, lift, modify.
    destruct (at_index (assembled s) _) as [old|e]; [|destruct s; reflexivity].
    cbn [changed]. destruct (set_index (assembled s) _ _) as [out|e]; [|destruct s; reflexivity].
    replace (Z.of_nat j + 1) with (Z.of_nat (S j)) by lia. rewrite IHn. reflexivity.
Qed.

Lemma write_performs : forall t a out,
  write_bytes a (map ord t) out = perform out (text_changes a t).
Proof.
  induction t as [|c t IH]; intros a out; cbn [map write_bytes text_changes perform]; auto.
  cbn [changed]. destruct ((a <? 0) || (zlen out <=? a)) eqn:E.
  - unfold set_index. rewrite E. unfold at_index. apply orb_true_iff in E. destruct E as [E|E].
    + rewrite E. reflexivity.
    + apply Z.leb_le in E. destruct (a <? 0); auto.
      replace (nth_error out (Z.to_nat a)) with (@None Z); auto.
      symmetry. apply nth_error_None. unfold zlen in E. lia.
  - apply orb_false_iff in E. destruct E as [E1 E2]. apply Z.ltb_ge in E1. apply Z.leb_gt in E2.
    destruct (at_index_ok out a) as [x X]; [lia|]. rewrite X. rewrite set_index_ok by lia. apply IH.
Qed.

Lemma hook_performs : forall w a v s,
  apply_hook (to_str_hook w) a v s = performs (text_changes a (format_0d w v)) s.
Proof.
  intros. unfold apply_hook, to_str_hook, performs. rewrite write_performs. reflexivity.
Qed.

(** ** Names *)

Lemma head_formula : forall t name, head_of t name ->
  exists sel post, get_math_formula t = (name, sel, post).
Proof.
  intros t name (sel & post & -> & SL & N & O & NE & P). exists sel.
  destruct P as [->|(o & r & -> & I)].
  - exists []. rewrite app_nil_r. apply gmf_plain; auto. split; auto. apply no_ops_tl; auto.
  - exists (o :: r). unfold get_math_formula.
    rewrite pre_formula_sel.
    2:{ exact SL. }
    2:{ intros c t E. destruct name as [|c' n]; [congruence|]. injection E as -> _. eapply N; eauto. }
    rewrite skipn_app, skipn_all, Nat.sub_diag. cbn [skipn app].
    rewrite post_loop_chain by (auto; lia).
    f_equal. f_equal. rewrite !app_length. cbn [length].
    replace (length sel + (length name + S (length r)) - S (length r) - length sel)%nat
      with (length name) by lia.
    rewrite firstn_app, Nat.sub_diag, firstn_all. cbn [firstn]. apply app_nil_r.
Qed.

Lemma head_none : forall p lbls t name, head_of t name -> dget str_eqb lbls name = None ->
  label_absolute p lbls t = Ok None.
Proof.
  intros p lbls t name H D. destruct (head_formula t name H) as (sel & post & G).
  unfold label_absolute, label_by_name_with. rewrite G, D. reflexivity.
Qed.
Lemma head_some : forall p lbls t name a, head_of t name -> label_absolute p lbls t = Ok (Some a) ->
  exists l, dget str_eqb lbls name = Some l.
Proof.
  intros p lbls t name a H D. destruct (head_formula t name H) as (sel & post & G).
  unfold label_absolute, label_by_name_with in D. rewrite G in D.
  destruct (dget str_eqb lbls name); [eauto|discriminate].
Qed.
Lemma relative_none : forall p lbls t start, label_absolute p lbls t = Ok None ->
  label_relative p lbls t start = Ok None.
Proof.
  intros p lbls t start H. unfold label_relative, label_absolute, label_by_name_with in *.
  destruct (get_math_formula t) as [[n sel] post]. destruct (dget str_eqb lbls n); auto.
  destruct (apply_math_formula _ _ _ _ _ _); discriminate.
Qed.
Lemma absolute_some : forall p lbls t start v, label_relative p lbls t start = Ok (Some v) ->
  label_absolute p lbls t <> Ok None.
Proof. intros p lbls t start v H A. apply (relative_none _ _ _ start) in A. congruence. Qed.

(** ** The encoded value *)

Lemma encoded_pack : forall d t v, (forall b, ld_bits d = Some b -> 0 <= snd b) ->
  encoded d t v <->
  (match ld_bits d with
   | Some bits => pack_bits 0 [(bits, match ld_filter d with Some f => f t | None => t end)] = Ok v
   | None => (match ld_filter d with Some f => f t | None => t end) = v
   end).
Proof.
  intros d t v B. unfold encoded. cbv zeta. destruct (ld_bits d) as [bits|]; [|split; congruence].
  set (u := match ld_filter d with Some f => f t | None => t end).
  destruct (C03_pack_bits_exact [(bits, u)] 0) as [P1 P2].
  { constructor; [|constructor]. apply B. reflexivity. }
  split.
  - intros [F T]. destruct P1 as (r & E & R); [constructor; auto|]. rewrite E. f_equal.
    apply Z.bits_inj'. intros i I. rewrite R by auto. rewrite Z.testbit_0_l. cbn [orb]. symmetry. auto.
  - intros E.
    assert (F : field_ok (bits, u)).
    { assert (D : field_ok (bits, u) \/ ~ field_ok (bits, u)).
      { unfold field_ok. lia. }
      destruct D as [D|D]; auto. rewrite P2 in E; [discriminate|]. intros X. inversion X; subst; auto. }
    split; auto. destruct P1 as (r & E' & R); [constructor; auto|]. rewrite E in E'. injection E' as ->.
    intros i I. rewrite R by auto. rewrite Z.testbit_0_l. reflexivity.
Qed.

Lemma encoded_unique : forall d t v w, encoded d t v -> encoded d t w -> v = w.
Proof.
  intros d t v w. unfold encoded. cbv zeta. destruct (ld_bits d); [|congruence].
  intros [_ H] [_ K]. apply Z.bits_inj'. intros i I. rewrite H, K by auto. reflexivity.
Qed.


(** ** One reference *)

Lemma range_ok : forall d v, 1 <= ld_bits_size d ->
  (negb (negb (ld_relative d =? 0)) && (v <? 0) = false /\
   in_bit_range_decimal v (ld_bits_size d) (negb (ld_relative d =? 0)) = true) <-> in_range d v.
Proof.
  intros d v B. unfold in_range. rewrite in_bit_range_decimal_iff by auto.
  destruct (ld_relative d =? 0); cbn [negb andb].
  - rewrite Z.ltb_ge. lia.
  - intuition lia.
Qed.

Definition resolve_rest (p : pcfg) (address : Z) (d : labeldata) (true_address absolute : Z) : M unit :=
  match ld_hook d with
  | Some h => apply_hook h address true_address
  | None =>
      if ld_alignment d =? 0 then praise ZeroDivisionError else
      if negb (absolute mod ld_alignment d =? 0) then araise (AlignmentError (ld_label d)) else
      if negb (negb (ld_relative d =? 0)) && (true_address <? 0)
      then araise (OnlyForwardAddressesAllowed (ld_label d) true_address) else
      if negb (in_bit_range_decimal true_address (ld_bits_size d) (negb (ld_relative d =? 0)))
      then araise (NotInBitRange true_address (ld_bits_size d) (Some (ld_label d))) else
      let true_address :=
        match ld_filter d with Some f => f true_address | None => true_address end in
      let! true_address :=
        (match ld_bits d with
         | Some bits => lift (pack_bits 0 [(bits, true_address)])
         | None => ret true_address
         end) in
      patch_loop (big_endian p) address (ld_size d) true_address 0 (Z.to_nat (ld_size d))
  end.

Lemma resolve_target : forall p s a d abs v, target p (labels s) d abs v ->
  resolve_one p dummy_linker a d s = resolve_rest p a d v abs s.
Proof.
  intros p s a d abs v T. unfold resolve_one, m_label_absolute. unfold bind at 1.
  destruct T as [abs R A | abs v R A V]; rewrite A.
  - rewrite (proj2 (Z.eqb_eq _ _) R). cbn [negb]. unfold bind at 1, ret at 1. unfold bind at 1, ret at 1.
    unfold resolve_rest. rewrite (proj2 (Z.eqb_eq _ _) R). cbn [negb]. reflexivity.
  - rewrite (proj2 (Z.eqb_neq _ _) R). cbn [negb]. unfold bind at 1. rewrite V. unfold bind at 1, ret at 1.
    unfold resolve_rest. rewrite (proj2 (Z.eqb_neq _ _) R). cbn [negb]. reflexivity.
Qed.

Lemma resolve_no_target : forall p s s' a d, resolve_one p dummy_linker a d s = (s', Ok tt) ->
  exists abs v, target p (labels s) d abs v.
Proof.
  intros p s s' a d H. unfold resolve_one, m_label_absolute in H. unfold bind at 1 in H.
  destruct (label_absolute p (labels s) (ld_label d)) as [[abs|]|e] eqn:A; [| |discriminate].
  - destruct (ld_relative d =? 0) eqn:R.
    + apply Z.eqb_eq in R. exists abs, abs. apply tg_absolute; auto.
    + apply Z.eqb_neq in R. cbn [negb] in H. unfold bind at 1 in H.
      destruct (label_relative p (labels s) (ld_label d) (ld_relative d)) as [[v|]|e] eqn:V; [| |discriminate].
      * exists abs, v. apply tg_relative; auto.
      * discriminate H.
  - exfalso. destruct (ld_relative d =? 0); cbn [negb] in H.
    + discriminate H.
    + unfold bind at 1 in H. rewrite (relative_none _ _ _ _ A) in H. discriminate H.
Qed.

Lemma aligned_mod : forall d abs, 1 <= ld_alignment d -> aligned d abs <-> abs mod ld_alignment d = 0.
Proof. intros d abs L. unfold aligned. rewrite Z.mod_divide by lia. reflexivity. Qed.

Lemma resolve_changes : forall p s r ch, ref_ok r -> ref_changes p (labels s) r ch ->
  resolve_one p dummy_linker (fst r) (snd r) s = performs ch s.
Proof.
  intros p s r ch (B & AL & BT & HK) H. destruct H as [a d v H V | a d w abs v H T]; cbn [fst snd] in *.
  - destruct V as (abs & t & T & A & R & E). rewrite (resolve_target _ _ _ _ _ _ T).
    unfold resolve_rest. rewrite H.
    replace (ld_alignment d =? 0) with false by (symmetry; apply Z.eqb_neq; lia).
    rewrite (aligned_mod d abs AL) in A. rewrite A. cbn [Z.eqb negb].
    apply range_ok in R; auto. destruct R as [R1 R2]. rewrite R1, R2. cbn [negb]. cbv zeta.
    apply encoded_pack in E; auto. unfold field_changes.
    destruct (ld_bits d) as [bits|].
    + unfold bind, lift. rewrite E. apply (patch_performs _ _ _ _ _ 0).
    + unfold bind, ret. rewrite E. apply (patch_performs _ _ _ _ _ 0).
  - rewrite (resolve_target _ _ _ _ _ _ T). unfold resolve_rest. rewrite H. apply hook_performs.
Qed.

Lemma resolve_inv : forall p s s' r, ref_ok r -> resolve_one p dummy_linker (fst r) (snd r) s = (s', Ok tt) ->
  exists ch, ref_changes p (labels s) r ch.
Proof.
  intros p s s' [a d] (B & AL & BT & HK) H. cbn [fst snd] in *.
  destruct (resolve_no_target _ _ _ _ _ H) as (abs & t & T).
  rewrite (resolve_target _ _ _ _ _ _ T) in H. unfold resolve_rest in H.
  destruct HK as [HK|[w HK]]; rewrite HK in H.
  - replace (ld_alignment d =? 0) with false in H by (symmetry; apply Z.eqb_neq; lia).
    destruct (abs mod ld_alignment d =? 0) eqn:A; cbn [negb] in H; [|discriminate].
    apply Z.eqb_eq in A. apply aligned_mod in A; auto.
    destruct (negb (negb (ld_relative d =? 0)) && (t <? 0)) eqn:R1; [discriminate|].
    destruct (in_bit_range_decimal t (ld_bits_size d) (negb (ld_relative d =? 0))) eqn:R2; cbn [negb] in H; [|discriminate].
    assert (R : in_range d t) by (apply range_ok; auto).
    cbv zeta in H.
    assert (V : exists v, encoded d t v).
    { destruct (ld_bits d) as [bits|] eqn:BB.
      - unfold bind, lift in H. destruct (pack_bits 0 _) as [v|] eqn:P; [|discriminate].
        exists v. apply encoded_pack; auto; rewrite BB; auto.
      - eexists. apply encoded_pack; [rewrite BB; auto|]. rewrite BB. reflexivity. }
    destruct V as [v V]. exists (field_changes (big_endian p) a (ld_size d) v).
    apply rc_field; auto. exists abs, t. auto.
  - eexists. eapply rc_text; eauto.
Qed.

Lemma resolve_fault : forall p s a d e, fault p (labels s) d e -> 1 <= ld_bits_size d ->
  resolve_one p dummy_linker a d s = (s, Err (AExc e)).
Proof.
  intros p s a d e F B. destruct F as [name H D | abs v H T NZ A | abs v H T NZ A R L | abs v H T NZ A R L | abs v b H T NZ A R BB B0 L].
  - pose proof (head_none p (labels s) _ _ H D) as N.
    unfold resolve_one, m_label_absolute. unfold bind at 1. rewrite N.
    destruct (ld_relative d =? 0); cbn [negb].
    + reflexivity.
    + unfold bind at 1. rewrite (relative_none _ _ _ _ N). reflexivity.
  - rewrite (resolve_target _ _ _ _ _ _ T). unfold resolve_rest. rewrite H.
    rewrite (proj2 (Z.eqb_neq _ _) NZ).
    destruct (abs mod ld_alignment d =? 0) eqn:E; [|reflexivity].
    exfalso. apply A. apply Z.eqb_eq in E. apply Z.mod_divide; auto.
  - rewrite (resolve_target _ _ _ _ _ _ T). unfold resolve_rest. rewrite H.
    rewrite (proj2 (Z.eqb_neq _ _) NZ). apply Z.mod_divide in A; auto. rewrite A. cbn [Z.eqb negb].
    rewrite R. cbn [Z.eqb negb andb]. rewrite (proj2 (Z.ltb_lt _ _) L). reflexivity.
  - rewrite (resolve_target _ _ _ _ _ _ T). unfold resolve_rest. rewrite H.
    rewrite (proj2 (Z.eqb_neq _ _) NZ). apply Z.mod_divide in A; auto. rewrite A. cbn [Z.eqb negb].
    destruct (negb (negb (ld_relative d =? 0)) && (v <? 0)) eqn:E1.
    { exfalso. apply andb_true_iff in E1. destruct E1 as [E1 E2]. apply negb_true_iff, negb_false_iff, Z.eqb_eq in E1.
      apply Z.ltb_lt in E2. apply R in E1. lia. }
    destruct (in_bit_range_decimal v (ld_bits_size d) (negb (ld_relative d =? 0))) eqn:E2; [|reflexivity].
    exfalso. apply L. apply range_ok; auto.
  - rewrite (resolve_target _ _ _ _ _ _ T). unfold resolve_rest. rewrite H.
    rewrite (proj2 (Z.eqb_neq _ _) NZ). apply Z.mod_divide in A; auto. rewrite A. cbn [Z.eqb negb].
    apply range_ok in R; auto. destruct R as [R1 R2]. rewrite R1, R2. cbn [negb]. cbv zeta. rewrite BB.
    unfold bind, lift.
    destruct (C03_pack_bits_exact [(b, match ld_filter d with Some f => f v | None => v end)] 0) as [_ P].
    { constructor; [exact B0|constructor]. }
    rewrite P; [reflexivity|]. intros X. inversion X; auto.
Qed.

(** ** All references *)

Lemma performs_labels : forall l s, labels (fst (performs l s)) = labels s.
Proof. intros. unfold performs. destruct (perform (assembled s) l). reflexivity. Qed.
Lemma performs_eq : forall l s, performs l s =
  (set_assembled s (fst (perform (assembled s) l)),
   match snd (perform (assembled s) l) with None => Ok tt | Some e => Err e end).
Proof. intros. unfold performs. destruct (perform (assembled s) l) as [o [e|]]; reflexivity. Qed.

Lemma iter_changes : forall p refs chs s, Forall ref_ok refs ->
  Forall2 (ref_changes p (labels s)) refs chs ->
  iter (fun '(address, d) => resolve_one p dummy_linker address d) refs s = performs (concat chs) s.
Proof.
  intros p refs chs s RO F. revert s RO F. revert chs.
  induction refs as [|[a d] refs IH]; intros chs s RO F; inversion F as [|? ch ? chs' C F']; subst.
  - cbn. unfold performs. cbn. destruct s; reflexivity.
  - inversion RO; subst. cbn [iter concat]. unfold bind.
    pose proof (resolve_changes p s (a, d) ch) as E. cbn [fst snd] in E. rewrite E by auto.
    rewrite !performs_eq. rewrite perform_app.
    destruct (perform (assembled s) ch) as [out [e|]]; cbn [fst snd]; auto.
    rewrite (IH chs') by auto. rewrite performs_eq. reflexivity.
Qed.

Lemma iter_inv : forall p refs s s', Forall ref_ok refs ->
  iter (fun '(address, d) => resolve_one p dummy_linker address d) refs s = (s', Ok tt) ->
  exists chs, Forall2 (ref_changes p (labels s)) refs chs.
Proof.
  intros p refs. induction refs as [|[a d] refs IH]; intros s s' RO H.
  - exists []. constructor.
  - inversion RO; subst. cbn [iter] in H. unfold bind in H.
    destruct (resolve_one p dummy_linker a d s) as [s1 [[]|e]] eqn:E; [|discriminate].
    destruct (resolve_inv p s s1 (a, d)) as [ch C]; auto.
    pose proof (resolve_changes p s (a, d) ch H2 C) as X. cbn [fst snd] in X. rewrite E in X.
    apply IH in H; auto. destruct H as [chs H]. exists (ch :: chs). constructor; auto.
    replace (labels s) with (labels s1); auto.
    replace s1 with (fst (performs ch s)) by (rewrite <- X; reflexivity). apply performs_labels.
Qed.

(** The default link without passes. *)
Lemma link_eq : forall c s, no_passes c -> link c dummy_linker s =
  match resolve_labels (c_p c) dummy_linker s with
  | (s', Ok _) => (s', Ok tt)
  | (s', Err e) => (s', Err e)
  end.
Proof.
  intros c s [P1 P2]. unfold link. rewrite P1, P2. cbn [iter]. unfold bind at 1, ret at 1.
  unfold bind at 1. destruct (resolve_labels (c_p c) dummy_linker s) as [s' [[]|e]]; auto.
  unfold bind, ret, dummy_linker, get, modify, lk_link, bind, ret. f_equal. destruct s'; reflexivity.
Qed.

Theorem link_iff : forall c s s', no_passes c -> Forall ref_ok (labels_addresses s) ->
  link c dummy_linker s = (s', Ok tt) <->
  exists chs, Forall2 (ref_changes (c_p c) (labels s)) (labels_addresses s) chs /\
    inside (zlen (assembled s)) (concat chs) /\
    s' = set_assembled s (assembled s') /\ length (assembled s') = length (assembled s) /\
    forall i, nth_error (assembled s') i =
      option_map (final (Z.of_nat i) (concat chs)) (nth_error (assembled s) i).
Proof.
  intros c s s' NP RO. rewrite link_eq by auto. unfold resolve_labels, bind, get. split.
  - intros H.
    destruct (iter (fun '(address, d) => resolve_one (c_p c) dummy_linker address d) (labels_addresses s) s)
      as [s1 [[]|e]] eqn:E; [|discriminate].
    injection H as ->. destruct (iter_inv _ _ _ _ RO E) as [chs F]. exists chs. split; auto.
    rewrite (iter_changes _ _ _ _ RO F), performs_eq in E.
    destruct (perform (assembled s) (concat chs)) as [out [e|]] eqn:P; [discriminate|].
    cbn [fst snd] in E. injection E as <-.
    split; [apply perform_iff; rewrite P; reflexivity|]. cbn [assembled set_assembled].
    split; [reflexivity|]. apply perform_spec. exact P.
  - intros (chs & F & I & E & L & N). rewrite (iter_changes _ _ _ _ RO F), performs_eq.
    apply perform_iff in I. destruct (perform (assembled s) (concat chs)) as [out o] eqn:P.
    cbn [fst snd] in *. subst o. apply perform_spec in P. destruct P as [L' N'].
    rewrite E. f_equal. f_equal. apply list_eq_nth. intros i. rewrite N, N'. reflexivity.
Qed.
