(** Facts about the Python primitives (Py.v). *)
From Coq Require Import Lia ZifyBool.
From Verif Require Import Py.
Local Open Scope Z_scope.

Lemma str_eqb_eq : forall a b, str_eqb a b = true <-> a = b.
Proof.
  induction a; destruct b; cbn [str_eqb]; split; intros; try discriminate; auto.
  - apply andb_true_iff in H. destruct H as [H1 H2].
    apply Ascii.eqb_eq in H1. apply IHa in H2. subst. reflexivity.
  - injection H as -> ->. rewrite Ascii.eqb_refl. apply IHa. reflexivity.
Qed.

Lemma str_eqb_refl : forall a, str_eqb a a = true.
Proof. intros. apply str_eqb_eq. reflexivity. Qed.

Lemma str_eqb_neq : forall a b, str_eqb a b = false <-> a <> b.
Proof.
  intros. rewrite <- str_eqb_eq. destruct (str_eqb a b); split; intros; congruence.
Qed.

Lemma str_eqb_spec : forall a b, reflect (a = b) (str_eqb a b).
Proof. intros. apply iff_reflect. symmetry. apply str_eqb_eq. Qed.

Lemma chr_in_In : forall c l, chr_in c l = true <-> In c l.
Proof.
  intros. unfold chr_in. rewrite existsb_exists. split.
  - intros (x & H & E). apply Ascii.eqb_eq in E. subst. auto.
  - intros. exists c. rewrite Ascii.eqb_refl. auto.
Qed.

Lemma chr_in_not : forall c l, chr_in c l = false <-> ~ In c l.
Proof. intros. rewrite <- chr_in_In. destruct (chr_in c l); split; intros; congruence. Qed.

Lemma str_in_In : forall c l, str_in c l = true <-> In c l.
Proof.
  intros. unfold str_in. rewrite existsb_exists. split.
  - intros (x & H & E). apply str_eqb_eq in E. subst. auto.
  - intros. exists c. rewrite str_eqb_refl. auto.
Qed.

Lemma starts_with_iff : forall p s, starts_with p s = true <-> exists t, s = p ++ t.
Proof.
  induction p; intros.
  - cbn. split; eauto.
  - destruct s; cbn [starts_with].
    + split; [discriminate|]. intros [t H]. discriminate.
    + rewrite andb_true_iff, IHp, Ascii.eqb_eq. split.
      * intros [-> [t ->]]. exists t. reflexivity.
      * intros [t H]. injection H as -> ->. eauto.
Qed.

Lemma ends_with_iff : forall p s, ends_with p s = true <-> exists t, s = t ++ p.
Proof.
  intros. unfold ends_with. rewrite starts_with_iff. split; intros [t H].
  - exists (rev t). rewrite <- (rev_involutive s), H, rev_app_distr, rev_involutive. reflexivity.
  - exists (rev t). subst. apply rev_app_distr.
Qed.

Lemma drop_last_app : forall {A} (s t : list A), drop_last (length t) (s ++ t) = s.
Proof.
  intros. unfold drop_last. rewrite app_length, Nat.add_sub.
  rewrite firstn_app, Nat.sub_diag, firstn_all. cbn [firstn]. apply app_nil_r.
Qed.

Lemma inner_quoted : forall {A} (q r : A) s, inner (q :: s ++ [r]) = s.
Proof. intros. unfold inner. cbn [skipn]. apply (drop_last_app s [r]). Qed.

Lemma zlen_app : forall {A} (a b : list A), zlen (a ++ b) = zlen a + zlen b.
Proof. intros. unfold zlen. rewrite app_length. lia. Qed.
Lemma zlen_nonneg : forall {A} (a : list A), 0 <= zlen a.
Proof. intros. unfold zlen. lia. Qed.
Lemma zlen_nil : forall {A}, zlen (@nil A) = 0.
Proof. reflexivity. Qed.
Lemma zlen_cons : forall {A} (a : A) l, zlen (a :: l) = 1 + zlen l.
Proof. intros. unfold zlen. cbn [length]. lia. Qed.
Lemma zlen_repeat : forall {A} (a : A) n, zlen (repeat a n) = Z.of_nat n.
Proof. intros. unfold zlen. rewrite repeat_length. reflexivity. Qed.

(** ** Dictionaries *)

Section DictFacts.
  Context {K V : Type} (eqb : K -> K -> bool)
          (eqb_eq : forall a b, eqb a b = true <-> a = b).

  Lemma eqb_refl' : forall a, eqb a a = true.
  Proof. intros. apply eqb_eq. reflexivity. Qed.

  Lemma dget_dset_same : forall (d : list (K * V)) k v, dget eqb (dset eqb d k v) k = Some v.
  Proof.
    induction d as [|[k' v'] d]; intros; cbn [dset dget].
    - rewrite eqb_refl'. reflexivity.
    - destruct (eqb k k') eqn:E; cbn [dget]; rewrite E; auto.
  Qed.

  Lemma dget_dset_other : forall (d : list (K * V)) k v k', k' <> k ->
    dget eqb (dset eqb d k v) k' = dget eqb d k'.
  Proof.
    induction d as [|[k0 v0] d]; intros; cbn [dset dget].
    - destruct (eqb k' k) eqn:E; auto. apply eqb_eq in E. congruence.
    - destruct (eqb k k0) eqn:E; cbn [dget].
      + apply eqb_eq in E. subst k0.
        destruct (eqb k' k) eqn:E; auto. apply eqb_eq in E. congruence.
      + destruct (eqb k' k0); auto.
  Qed.

  Lemma dget_dset : forall (d : list (K * V)) k v k',
    dget eqb (dset eqb d k v) k' = if eqb k' k then Some v else dget eqb d k'.
  Proof.
    intros. destruct (eqb k' k) eqn:E.
    - apply eqb_eq in E. subst. apply dget_dset_same.
    - apply dget_dset_other. intro. subst. rewrite eqb_refl' in E. discriminate.
  Qed.

  Lemma dset_same : forall (d : list (K * V)) k v, dget eqb d k = Some v -> dset eqb d k v = d.
  Proof.
    induction d as [|[k0 v0] d]; cbn [dset dget]; intros; [discriminate|].
    destruct (eqb k k0) eqn:E.
    - injection H as ->. reflexivity.
    - rewrite IHd; auto.
  Qed.

  Lemma dset_dset : forall (d : list (K * V)) k v w,
    dset eqb (dset eqb d k v) k w = dset eqb d k w.
  Proof.
    induction d as [|[k0 v0] d]; cbn [dset]; intros.
    - rewrite eqb_refl'. reflexivity.
    - destruct (eqb k k0) eqn:E; cbn [dset]; rewrite E; f_equal; auto.
  Qed.

  Lemma dget_In : forall (d : list (K * V)) k v, dget eqb d k = Some v -> In (k, v) d.
  Proof.
    induction d as [|[k0 v0] d]; cbn [dget]; intros; [discriminate|].
    destruct (eqb k k0) eqn:E.
    - apply eqb_eq in E. injection H as ->. subst. left. reflexivity.
    - right. auto.
  Qed.

  Lemma dget_None : forall (d : list (K * V)) k, dget eqb d k = None <-> ~ In k (map fst d).
  Proof.
    induction d as [|[k0 v0] d]; cbn [dget map fst In]; intros; [tauto|].
    destruct (eqb k k0) eqn:E.
    - apply eqb_eq in E. subst. split; [discriminate|]. tauto.
    - rewrite IHd. split; [|tauto]. intros H [->|]; auto. rewrite eqb_refl' in E. discriminate.
  Qed.

  Lemma dset_fresh : forall (d : list (K * V)) k v, dget eqb d k = None ->
    dset eqb d k v = d ++ [(k, v)].
  Proof.
    induction d as [|[k0 v0] d]; cbn [dset dget]; intros; auto.
    destruct (eqb k k0); [discriminate|]. rewrite IHd; auto.
  Qed.

  Lemma dset_keys : forall (d : list (K * V)) k v,
    map fst (dset eqb d k v) =
    match dget eqb d k with Some _ => map fst d | None => map fst d ++ [k] end.
  Proof.
    induction d as [|[k0 v0] d]; cbn [dset dget map fst]; intros; auto.
    destruct (eqb k k0) eqn:E; cbn [map fst]; auto.
    rewrite IHd. destruct (dget eqb d k); reflexivity.
  Qed.

  Lemma dset_NoDup : forall (d : list (K * V)) k v,
    NoDup (map fst d) -> NoDup (map fst (dset eqb d k v)).
  Proof.
    intros. rewrite dset_keys. destruct (dget eqb d k) eqn:E; auto.
    apply dget_None in E. clear v.
    induction (map fst d) as [|x l IH]; cbn.
    - constructor; auto; constructor.
    - inversion H; subst. constructor.
      + rewrite in_app_iff. cbn. intros [?|[<-|[]]]; auto. apply E. left. reflexivity.
      + apply IH; auto. intro. apply E. right. auto.
  Qed.

  Lemma In_dget : forall (d : list (K * V)) k v,
    NoDup (map fst d) -> In (k, v) d -> dget eqb d k = Some v.
  Proof.
    induction d as [|[k0 v0] d]; cbn [dget map fst In]; intros k v N H; [tauto|].
    inversion N; subst. destruct H as [H|H].
    - injection H as -> ->. rewrite eqb_refl'. reflexivity.
    - destruct (eqb k k0) eqn:E; auto. apply eqb_eq in E. subst.
      exfalso. apply H2. apply (in_map fst) in H. exact H.
  Qed.

  Lemma dset_length_some : forall (d : list (K * V)) k v v0,
    dget eqb d k = Some v0 -> length (dset eqb d k v) = length d.
  Proof.
    intros. rewrite <- (map_length fst (dset eqb d k v)), <- (map_length fst d), dset_keys, H.
    reflexivity.
  Qed.
End DictFacts.

Lemma dmem_iff : forall {V} (d : list (str * V)) k,
  dmem str_eqb d k = true <-> exists v, dget str_eqb d k = Some v.
Proof.
  intros. unfold dmem. destruct (dget str_eqb d k) eqn:E; split; intros H; eauto; try discriminate.
  destruct H. discriminate.
Qed.
Lemma dmem_false : forall {V} (d : list (str * V)) k,
  dmem str_eqb d k = false <-> dget str_eqb d k = None.
Proof.
  intros. unfold dmem. destruct (dget str_eqb d k) eqn:E; split; intros H; auto; discriminate.
Qed.
