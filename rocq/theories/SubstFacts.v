(** Proofs about substitute_with_dict (utils.py:144-170). *)
From Coq Require Import Lia.
From Verif Require Import Py PyFacts Utils SpecSubst.
Local Open Scope Z_scope.

Lemma value_of_dget : forall dict k, value_of dict k = dget str_eqb dict k.
Proof.
  induction dict as [|[k' v] d IH]; intros k; cbn [value_of dget]; auto.
  destruct (list_eq_dec ascii_dec k k') as [E|E].
  - apply str_eqb_eq in E. rewrite E. reflexivity.
  - destruct (str_eqb k k') eqn:X; auto. apply str_eqb_eq in X. congruence.
Qed.

Lemma valid_name_char_spec : forall c, valid_name_char c = true <-> name_char c.
Proof.
  intros c. unfold name_char.
  assert (D : valid_name_char c = chr_in c name_chars).
  { destruct c as [[] [] [] [] [] [] [] []]; vm_compute; reflexivity. }
  rewrite D. apply chr_in_In.
Qed.

Lemma valid_name_char_false : forall c, valid_name_char c = false <-> ~ name_char c.
Proof.
  intros c. rewrite <- valid_name_char_spec. destruct (valid_name_char c); split; congruence.
Qed.

Definition pending (acc : str) (ks : list chunk) : list chunk :=
  match acc with [] => ks | _ => Name acc :: ks end.

Lemma subst_chars_chunks : forall dict s acc, Forall name_char acc ->
  exists ks, chunks_of (acc ++ s) ks /\ subst_chars dict acc s = flat_map (chunk_subst dict) ks.
Proof.
  intros dict. induction s as [|c s IH]; intros acc A.
  - exists (pending acc []). rewrite app_nil_r. destruct acc as [|a acc].
    + repeat split; auto; constructor.
    + split.
      * repeat split; cbn; auto; try rewrite app_nil_r; auto.
        constructor; [split; [discriminate|auto]|constructor].
      * cbn [subst_chars subst_name pending flat_map chunk_subst].
        rewrite value_of_dget, app_nil_r. reflexivity.
  - cbn [subst_chars]. destruct (valid_name_char c) eqn:V.
    + destruct (IH (acc ++ [c])) as (ks & K & E).
      { apply Forall_app. split; auto. constructor; auto. apply valid_name_char_spec; auto. }
      exists ks. rewrite <- app_assoc in K. split; auto.
    + destruct (IH [] (Forall_nil _)) as (ks & (K1 & K2 & K3) & E).
      apply valid_name_char_false in V.
      exists (pending acc (Other c :: ks)). cbn [app] in K3. destruct acc as [|a acc].
      * split; [|cbn; rewrite E; reflexivity].
        split; [constructor; auto|]. split; [exact K2|].
        cbn [app pending flat_map chunk_text]. rewrite K3 at 1. reflexivity.
      * split.
        -- split; [constructor; [split; [discriminate|auto]|constructor; auto]|].
           split; [exact K2|].
           cbn [pending flat_map chunk_text]. rewrite K3 at 1. reflexivity.
        -- cbn [pending flat_map chunk_subst subst_name]. rewrite value_of_dget, E. reflexivity.
Qed.

(** A token has only one decomposition. *)
Lemma run_unique : forall w1 w2 r1 r2, Forall name_char w1 -> Forall name_char w2 ->
  (forall c t, r1 = c :: t -> ~ name_char c) -> (forall c t, r2 = c :: t -> ~ name_char c) ->
  w1 ++ r1 = w2 ++ r2 -> w1 = w2 /\ r1 = r2.
Proof.
  induction w1 as [|a w1 IH]; intros [|b w2] r1 r2 F1 F2 N1 N2 E; cbn [app] in E.
  - auto.
  - exfalso. inversion F2; subst. eapply N1; eauto.
  - exfalso. inversion F1; subst. eapply N2; eauto.
  - inversion F1; inversion F2; subst. injection E as -> E.
    destruct (IH w2 r1 r2) as [-> ->]; auto.
Qed.

Lemma after_name : forall w ks, Forall chunk_ok ks -> maximal (Name w :: ks) ->
  forall c t, flat_map chunk_text ks = c :: t -> ~ name_char c.
Proof.
  intros w [|[w'|c'] ks] F M c t E; cbn in *; try discriminate; try contradiction.
  injection E as <- _. inversion F; subst. auto.
Qed.

Lemma maximal_tl : forall k ks, maximal (k :: ks) -> maximal ks.
Proof. intros [w|c] [|[w'|c'] ks]; cbn; tauto. Qed.

Lemma chunks_unique : forall k1 k2 token, chunks_of token k1 -> chunks_of token k2 -> k1 = k2.
Proof.
  induction k1 as [|a k1 IH]; intros k2 token (F1 & M1 & E1) (F2 & M2 & E2).
  - destruct k2 as [|b k2]; auto. exfalso. subst token. inversion F2; subst.
    destruct b as [[|x w]|c]; cbn in *; try discriminate. destruct H1. congruence.
  - destruct k2 as [|b k2].
    + exfalso. subst token. inversion F1; subst.
      destruct a as [[|x w]|c]; cbn in *; try discriminate. destruct H1. congruence.
    + inversion F1; inversion F2; subst.
      assert (T : forall t1 t2, t1 = flat_map chunk_text k1 -> t2 = flat_map chunk_text k2 ->
                  t1 = t2 -> k1 = k2).
      { intros t1 t2 -> -> E. eapply (IH k2 (flat_map chunk_text k1)).
        - repeat split; auto. eapply maximal_tl; eauto.
        - repeat split; auto. eapply maximal_tl; eauto. }
      cbn [flat_map] in E2.
      destruct a as [w1|c1], b as [w2|c2]; cbn [chunk_text chunk_ok] in *.
      * destruct (run_unique w1 w2 _ _ (proj2 H1) (proj2 H5)
                    (after_name w1 k1 H2 M1) (after_name w2 k2 H6 M2) E2) as [-> E].
        f_equal. eapply T; eauto.
      * exfalso. destruct w1 as [|x w1]; [destruct H1; congruence|]. destruct H1 as [_ H1].
        inversion H1; subst. injection E2 as -> _. contradiction.
      * exfalso. destruct w2 as [|x w2]; [destruct H5; congruence|]. destruct H5 as [_ H5].
        inversion H5; subst. injection E2 as -> _. contradiction.
      * injection E2 as -> E. f_equal. eapply T; eauto.
Qed.

Lemma subst_token_substituted : forall dict token, substituted dict token (subst_token dict token).
Proof.
  intros. unfold subst_token. destruct (dget str_eqb dict token) eqn:E.
  - apply subst_whole. rewrite value_of_dget. auto.
  - destruct (subst_chars_chunks dict token [] (Forall_nil _)) as (ks & K & ->).
    apply subst_parts; auto. rewrite value_of_dget. auto.
Qed.

Lemma substituted_unique : forall dict token a b,
  substituted dict token a -> substituted dict token b -> a = b.
Proof.
  intros dict token a b [v H|ks H K] [v' H'|ks' H' K']; try congruence.
  rewrite (chunks_unique ks ks' token); auto.
Qed.

Lemma chunks_text : forall dict ks, (forall w, In (Name w) ks -> value_of dict w = None) ->
  flat_map (chunk_subst dict) ks = flat_map chunk_text ks.
Proof.
  induction ks as [|k ks IH]; intros H; auto. cbn [flat_map]. rewrite IH.
  - f_equal. destruct k as [w|c]; auto. cbn. rewrite H; auto. left; auto.
  - intros; apply H; right; auto.
Qed.

Lemma subst_token_untouched : forall dict token, untouched dict token ->
  subst_token dict token = token.
Proof.
  intros dict token [N U]. destruct (subst_token_substituted dict token) as [v H|ks H K].
  - congruence.
  - rewrite chunks_text by eauto. destruct K as (_ & _ & ->). reflexivity.
Qed.

Lemma map_subst_untouched : forall dict tokens, Forall (untouched dict) tokens ->
  map (subst_token dict) tokens = tokens.
Proof.
  induction 1; auto. cbn [map]. rewrite subst_token_untouched, IHForall; auto.
Qed.

Lemma substitute_untouched : forall dict tokens n, Forall (untouched dict) (skipn n tokens) ->
  substitute_with_dict tokens dict n = tokens.
Proof.
  intros. unfold substitute_with_dict. rewrite map_subst_untouched by auto. apply firstn_skipn.
Qed.

(** No defines, no change. *)
Lemma untouched_nil : forall token, untouched [] token.
Proof. split; auto. Qed.
Lemma substitute_nil : forall tokens n, substitute_with_dict tokens [] n = tokens.
Proof.
  intros. apply substitute_untouched. apply Forall_forall. intros. apply untouched_nil.
Qed.
