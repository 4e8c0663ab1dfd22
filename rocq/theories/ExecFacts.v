(** Invariants of assemble() and link(), proved over events. *)
From Coq Require Import Lia.
From Verif Require Import Py PyFacts Utils Tokenizer State Assembler SpecUtils UtilsFacts Events SpecExec.
Local Open Scope Z_scope.

Definition registered (c : cfg) : directive -> list str -> Prop :=
  fun d _ => exists k, dget str_eqb (c_directives c) k = Some d.

Lemma text_registered : forall c text, text_allowed c (registered c) text.
Proof.
  intros c text ss _. apply Forall_forall. intros x _ _ d tokens D _.
  unfold directive_of in D. destruct (s_tokens x); [discriminate|]. eexists; eauto.
Qed.
Lemma assemble_registered : forall c fuel text s,
  events c (registered c) s (fst (assemble c fuel text s)).
Proof.
  intros. apply runs_assemble.
  - intros n t _. apply text_registered.
  - apply text_registered.
Qed.

(** A relation kept by every event is kept by every run. *)
Lemma events_keep : forall c allowed (R : st -> st -> Prop),
  (forall s, R s s) -> (forall a b d, R a b -> R b d -> R a d) ->
  (forall a b, event c allowed a b -> R a b) ->
  forall a b, events c allowed a b -> R a b.
Proof. intros c al R RR RT H a b E. induction E; eauto. Qed.

(** Relations on link. *)
Section Link.
  Context (R : st -> st -> Prop) (R_refl : forall s, R s s)
          (R_trans : forall a b d, R a b -> R b d -> R a d).

  Definition kept {A} (m : M A) : Prop := forall s, R s (fst (m s)).

  Lemma kept_reader : forall A (m : M A), reader m -> kept m.
  Proof. intros A m H s. rewrite H. auto. Qed.
  Lemma kept_bind : forall A B (m : M A) (k : A -> M B), kept m -> (forall a, kept (k a)) ->
    kept (bind m k).
  Proof.
    intros A B m k Hm Hk s. unfold bind. specialize (Hm s). destruct (m s) as [s' [a|e]]; auto.
    cbn in *. eapply R_trans; eauto. apply Hk.
  Qed.
  Lemma kept_iter : forall A (f : A -> M unit) l, (forall a, In a l -> kept (f a)) -> kept (iter f l).
  Proof.
    induction l; intros H; cbn [iter]; [apply kept_reader, reader_ret|].
    apply kept_bind; [apply H; left; auto|]. intros _. apply IHl. intros; apply H; right; auto.
  Qed.

  Lemma kept_patch : forall be size v n address i,
    (forall s out, R s (set_assembled s out)) -> kept (patch_loop be address size v i n).
  Proof.
    induction n; intros address i W; cbn [patch_loop]; [apply kept_reader, reader_ret|].
    cbv zeta. apply kept_bind; [apply kept_reader, reader_get|]. intros s.
    apply kept_bind; [apply kept_reader, reader_lift|]. intros old.
    apply kept_bind; [apply kept_reader, reader_lift|]. intros out.
    apply kept_bind; [intros s'; apply W|]. intros _. auto.
  Qed.

  Lemma kept_resolve : forall p lk address d,
    (forall s out, R s (set_assembled s out)) ->
    (forall a d, kept (lk_resolve lk a d)) -> kept (resolve_one p lk address d).
  Proof.
    intros p lk address d W L. unfold resolve_one. cbv zeta.
    apply kept_bind; [apply kept_reader; intros s; reflexivity|]. intros ab.
    apply kept_bind.
    { destruct (negb (ld_relative d =? 0)); apply kept_reader; [intros s; reflexivity|apply reader_ret]. }
    intros t. apply kept_bind.
    { destruct t; [apply kept_reader, reader_ret|]. apply kept_bind; [apply L|].
      intros; apply kept_reader, reader_ret. }
    intros [v ab']. destruct (ld_hook d).
    - intros s. unfold apply_hook. destruct (p0 address v (assembled s)). apply W.
    - apply kept_bind.
      { destruct ab'; apply kept_reader; [apply reader_ret|apply reader_praise]. }
      intros a. repeat match goal with |- kept (if ?b then _ else _) => destruct b end;
        try (apply kept_reader; first [apply reader_praise|apply reader_araise]).
      apply kept_bind.
      { destruct (ld_bits d); apply kept_reader; [apply reader_lift|apply reader_ret]. }
      intros. apply kept_patch. auto.
  Qed.

  Lemma kept_link : forall c lk, (forall s out, R s (set_assembled s out)) ->
    passes_keep R c -> linker_keeps R lk -> kept (link c lk).
  Proof.
    intros c lk W P [L1 L2]. unfold link. apply kept_bind.
    { apply kept_iter. intros m I s. apply P. apply in_or_app; auto. }
    intros _. apply kept_bind.
    { unfold resolve_labels. apply kept_bind; [apply kept_reader, reader_get|]. intros s.
      apply kept_iter. intros [a d] _. apply kept_resolve; auto. }
    intros _. apply kept_bind.
    { apply kept_iter. intros m I s. apply P. apply in_or_app; auto. }
    intros _. apply kept_bind; [intros s; apply L2|]. intros out s. apply W.
  Qed.
End Link.

(** A relation on whole histories. *)
Lemma history_keep : forall (R : st -> st -> Prop) c (lks : linker -> Prop),
  (forall s, R s s) -> (forall a b d, R a b -> R b d -> R a d) ->
  (forall a b, event c (registered c) a b -> R a b) ->
  (forall s out, R s (set_assembled s out)) ->
  passes_keep R c -> (forall lk, lks lk -> linker_keeps R lk) ->
  forall a b, history c lks a b -> R a b.
Proof.
  intros R c lks RR RT EV W P L a b H. induction H; auto.
  - eapply RT; [exact IHhistory|]. eapply (events_keep c); eauto. apply assemble_registered.
  - eapply RT; [exact IHhistory|]. apply kept_link; auto.
Qed.

(** ** Labels *)

Definition labels_kept (s s' : st) : Prop := extends (labels s) (labels s').

Lemma extends_refl : forall A (l : list A), extends l l.
Proof. intros. exists []. rewrite app_nil_r. reflexivity. Qed.
Lemma extends_trans : forall A (a b d : list A), extends a b -> extends b d -> extends a d.
Proof. intros A a b d [t1 ->] [t2 ->]. exists (t1 ++ t2). rewrite app_assoc. reflexivity. Qed.

Lemma dset_new : forall V (d : list (str * V)) k v, dmem str_eqb d k = false ->
  dset str_eqb d k v = d ++ [(k, v)].
Proof.
  intros V d k v H. unfold dmem in H. induction d as [|[k' v'] d IH]; auto. cbn [dset dget] in *.
  destruct (str_eqb k k'); [discriminate|]. cbn. f_equal. auto.
Qed.

Lemma close_section_eq : forall s, close_section s = set_sections s (sections (close_section s)) (current_section s).
Proof.
  intros s. unfold close_section. destruct (current_section s) as [[|x n]|] eqn:E.
  - destruct s; cbn in *; subst; reflexivity.
  - destruct (dget str_eqb (sections s) (x :: n)); [reflexivity|]. destruct s; cbn in *; subst; reflexivity.
  - destruct s; cbn in *; subst; reflexivity.
Qed.

Ltac close_eq := rewrite close_section_eq.

Lemma labels_event : forall c, plugins_keep labels_kept c ->
  forall a b, event c (registered c) a b -> labels_kept a b.
Proof.
  intros c [P1 P2] a b E. unfold labels_kept in *. destruct E; try apply extends_refl.
  - eapply P1; eauto.
  - destruct H as [k H]. eapply P2; eauto.
  - cbn. rewrite dset_new by auto. eexists; reflexivity.
  - close_eq. apply extends_refl.
  - cbv zeta. close_eq. apply extends_refl.
Qed.

(** ** Output *)

Definition output_kept (s s' : st) : Prop := extends (assembled s) (assembled s').

Lemma output_event : forall c, plugins_keep output_kept c ->
  forall a b, event c (registered c) a b -> output_kept a b.
Proof.
  intros c [P1 P2] a b E. unfold output_kept in *.
  destruct E; try apply extends_refl; try (eexists; reflexivity).
  - eapply P1; eauto.
  - destruct H as [k H]. eapply P2; eauto.
  - close_eq. apply extends_refl.
  - cbv zeta. close_eq. apply extends_refl.
Qed.

(** ** Program counter *)

(** Directives that move the origin. *)
Definition no_origin (c : cfg) : directive -> list str -> Prop := fun d tokens =>
  registered c d tokens /\ d <> D_org /\ (d = D_section -> length tokens = 3%nat).
Definition no_origin_ram (c : cfg) : directive -> list str -> Prop := fun d tokens =>
  no_origin c d tokens /\ d <> D_ram.

Definition gap (s : st) : Z := pc s - zlen (assembled s).
Definition gap_grows (s s' : st) : Prop := gap s <= gap s'.
Definition gap_same (s s' : st) : Prop := gap s' = gap s.

Lemma gap_emit : forall s blob,
  gap (set_counter (set_assembled s (assembled s ++ blob)) (org_counter s + zlen blob)) = gap s.
Proof. intros. unfold gap, pc. cbn. rewrite zlen_app. lia. Qed.

Lemma gap_event : forall c, plugins_keep gap_same c ->
  forall a b, event c (no_origin c) a b -> gap_grows a b.
Proof.
  intros c [P1 P2] a b E. unfold gap_grows.
  destruct E; try (cbn; lia); try (rewrite gap_emit; lia); try (cbv [gap pc]; cbn; lia).
  - rewrite (P1 _ _ tokens s H). lia.
  - destruct H as [[k H] _]. rewrite (P2 _ _ tokens s H). lia.
  - exfalso. destruct H as (_ & N1 & N2). destruct H0 as [->|[-> L]]; [congruence|].
    specialize (N2 eq_refl). congruence.
  - exfalso. destruct H as (_ & N1 & N2). destruct H0 as [->|[-> L]]; [congruence|].
    specialize (N2 eq_refl). congruence.
  - close_eq. cbv [gap pc]; cbn; lia.
  - cbv zeta. close_eq. cbv [gap pc]; cbn; lia.
Qed.

Lemma gap_same_event : forall c, plugins_keep gap_same c ->
  forall a b, event c (no_origin_ram c) a b -> gap_same a b.
Proof.
  intros c [P1 P2] a b E. unfold gap_same.
  destruct E; try (cbn; lia); try (rewrite gap_emit; lia); try (cbv [gap pc]; cbn; lia).
  - apply (P1 _ _ tokens s H).
  - destruct H as [[[k H] _] _]. apply (P2 _ _ tokens s H).
  - exfalso. destruct H as ((_ & N1 & N2) & _). destruct H0 as [->|[-> L]]; [congruence|].
    specialize (N2 eq_refl). congruence.
  - exfalso. destruct H as ((_ & N1 & N2) & _). destruct H0 as [->|[-> L]]; [congruence|].
    specialize (N2 eq_refl). congruence.
  - exfalso. destruct H as [_ N]. congruence.
  - close_eq. cbv [gap pc]; cbn; lia.
  - cbv zeta. close_eq. cbv [gap pc]; cbn; lia.
Qed.

(** ** Bytes *)

Definition bytes_kept (s s' : st) : Prop := byte_state s -> byte_state s'.

Lemma write_bytes_byte : forall blob a out, Forall is_byte blob -> Forall is_byte out ->
  Forall is_byte (fst (write_bytes a blob out)).
Proof.
  induction blob; intros ad out B O; cbn [write_bytes]; auto. inversion B; subst.
  destruct (set_index out ad a) eqn:E; auto. apply IHblob; auto.
  unfold set_index in E. destruct ((ad <? 0) || (zlen out <=? ad)); [discriminate|]. injection E as <-.
  clear - H1 O. revert O. generalize (Z.to_nat ad) as n. intros n O. revert n.
  induction O; intros [|n]; cbn [replace_nth]; constructor; auto.
Qed.

Lemma to_str_hook_byte : forall w a v out, Forall is_byte out ->
  Forall is_byte (fst (to_str_hook w a v out)).
Proof. intros. apply write_bytes_byte; auto. apply map_ord_byte. Qed.

Lemma dset_In_Z : forall V (d : list (Z * V)) k v x, In x (dset Z.eqb d k v) ->
  In x d \/ snd x = v.
Proof.
  induction d as [|[k' v'] d IH]; intros k v x I; cbn [dset] in I.
  - destruct I as [<-|[]]. right. reflexivity.
  - destruct (Z.eqb k k').
    + destruct I as [<-|I]; [right; reflexivity|left; right; auto].
    + destruct I as [<-|I]; [left; left; auto|]. destruct (IH _ _ _ I); auto. left; right; auto.
Qed.

Lemma byte_hooks_ref : forall refs k d, byte_hooks refs -> plain_hook d ->
  byte_hooks (dset Z.eqb refs k d).
Proof.
  intros refs k d B P a d' h addr v out I H O. apply dset_In_Z in I. cbn in I.
  destruct I as [I| ->]; [eapply B; eauto|].
  destruct P as [P|[w P]]; [congruence|]. rewrite P in H. injection H as <-.
  apply to_str_hook_byte. auto.
Qed.

Lemma byte_event : forall c, byte_tables c -> plugins_keep bytes_kept c ->
  forall a b, event c (registered c) a b -> bytes_kept a b.
Proof.
  intros c (T1 & T2 & T3) [P1 P2] a b E. unfold bytes_kept in *. destruct E; intros [B1 B2]; try (split; auto; fail).
  - split; [|exact B2]. cbn. apply Forall_app. split; auto. apply H; [split; auto|exact T3].
  - split; [|exact B2]. cbn. apply Forall_app. split; auto. apply Forall_forall. intros x I.
    rewrite Forall_forall in B1. auto.
  - split; [exact B1|]. cbn. apply byte_hooks_ref; auto.
  - eapply P1; eauto. split; auto.
  - destruct H as [k H]. eapply P2; eauto. split; auto.
  - split; [|exact B2]. cbn. apply Forall_app. split; auto.
  - close_eq. split; auto.
  - cbv zeta. close_eq. split; auto.
Qed.

(** ** Bytes through link *)

Lemma bytes_refl : forall s, bytes_kept s s.
Proof. intros s H. exact H. Qed.
Lemma bytes_trans : forall a b d, bytes_kept a b -> bytes_kept b d -> bytes_kept a d.
Proof. unfold bytes_kept. auto. Qed.

Lemma replace_nth_byte : forall n v l, is_byte v -> Forall is_byte l ->
  Forall is_byte (replace_nth n v l).
Proof.
  intros n v l V L. revert n. induction L; intros [|n]; cbn [replace_nth]; constructor; auto.
Qed.
Lemma set_index_byte : forall l i v l', set_index l i v = Ok l' -> is_byte v ->
  Forall is_byte l -> Forall is_byte l'.
Proof.
  intros l i v l' H V L. unfold set_index in H.
  destruct ((i <? 0) || (zlen l <=? i)); [discriminate|]. injection H as <-.
  apply replace_nth_byte; auto.
Qed.
Lemma at_index_byte : forall l i v, at_index l i = Ok v -> Forall is_byte l -> is_byte v.
Proof.
  intros l i v H L. unfold at_index in H. destruct (i <? 0); [discriminate|].
  destruct (nth_error l (Z.to_nat i)) eqn:E; [|discriminate]. injection H as <-.
  rewrite Forall_forall in L. apply L. eapply nth_error_In; eauto.
Qed.
Lemma lor_byte : forall a b, is_byte a -> is_byte b -> is_byte (Z.lor a b).
Proof.
  unfold is_byte. intros a b A B. split; [apply Z.lor_nonneg; lia|].
  destruct (Z.eq_dec (Z.lor a b) 0) as [->|N]; [lia|].
  apply (Z.log2_lt_pow2 _ 8); [pose proof (proj2 (Z.lor_nonneg a b)); lia|].
  rewrite Z.log2_lor by lia. apply Z.max_lub_lt.
  - destruct (Z.eq_dec a 0) as [->|]; [cbn; lia|]. apply Z.log2_lt_pow2; lia.
  - destruct (Z.eq_dec b 0) as [->|]; [cbn; lia|]. apply Z.log2_lt_pow2; lia.
Qed.

Lemma bytes_patch : forall be size v n address i,
  kept bytes_kept (patch_loop be address size v i n).
Proof.
  induction n; intros address i; cbn [patch_loop]; [apply kept_reader; [apply bytes_refl|apply reader_ret]|].
  cbv zeta. intros s [B1 B2]. unfold bind, get, lift, modify.
  destruct (at_index (assembled s) _) eqn:A; [|split; auto].
  destruct (set_index (assembled s) _ _) eqn:S; [|split; auto].
  apply IHn. split; [|exact B2]. cbn. eapply set_index_byte; eauto.
  apply lor_byte; [eapply at_index_byte; eauto|].
  unfold is_byte. replace 255 with (Z.ones 8) by reflexivity. rewrite Z.land_ones by lia.
  apply Z.mod_pos_bound. lia.
Qed.

Lemma bytes_resolve : forall p lk address d,
  (forall h addr v out, ld_hook d = Some h -> Forall is_byte out ->
     Forall is_byte (fst (h addr v out))) ->
  (forall a d, kept bytes_kept (lk_resolve lk a d)) -> kept bytes_kept (resolve_one p lk address d).
Proof.
  intros p lk address d HK L. unfold resolve_one. cbv zeta.
  pose proof bytes_refl as RR. pose proof bytes_trans as RT.
  apply kept_bind; [exact RT|apply kept_reader; auto; intros s; reflexivity|]. intros ab.
  apply kept_bind; [exact RT| |].
  { destruct (negb (ld_relative d =? 0)); apply kept_reader; auto; [intros s; reflexivity|apply reader_ret]. }
  intros t. apply kept_bind; [exact RT| |].
  { destruct t; [apply kept_reader; auto; apply reader_ret|]. apply kept_bind; [exact RT|apply L|].
    intros; apply kept_reader; auto; apply reader_ret. }
  intros [v ab']. destruct (ld_hook d) as [h|] eqn:E.
  - intros s [B1 B2]. unfold apply_hook. destruct (h address v (assembled s)) as [out e] eqn:F.
    split; [|exact B2]. cbn. specialize (HK h address v (assembled s) eq_refl B1).
    rewrite F in HK. exact HK.
  - apply kept_bind; [exact RT| |].
    { destruct ab'; apply kept_reader; auto; [apply reader_ret|apply reader_praise]. }
    intros a. repeat match goal with |- kept _ (if ?b then _ else _) => destruct b end;
      try (apply kept_reader; auto; first [apply reader_praise|apply reader_araise]).
    apply kept_bind; [exact RT| |].
    { destruct (ld_bits d); apply kept_reader; auto; [apply reader_lift|apply reader_ret]. }
    intros. apply bytes_patch.
Qed.

Lemma bytes_link : forall c lk, passes_keep bytes_kept c -> linker_keeps bytes_kept lk ->
  (forall s b, byte_state s -> snd (lk_link lk s) = Ok b -> Forall is_byte b) ->
  kept bytes_kept (link c lk).
Proof.
  intros c lk P [L1 L2] L3. unfold link.
  pose proof bytes_refl as RR. pose proof bytes_trans as RT.
  apply kept_bind; [exact RT| |].
  { apply kept_iter; auto. intros m I s. apply P. apply in_or_app; auto. }
  intros _. apply kept_bind; [exact RT| |].
  { unfold resolve_labels. intros s BS. unfold bind, get.
    assert (K : kept bytes_kept (iter (fun '(address, d) => resolve_one (c_p c) lk address d)
                  (labels_addresses s))).
    { apply kept_iter; auto. intros [a d] I. apply bytes_resolve; auto.
      intros h addr v out Hh Ho. destruct BS as [_ B2]. eapply B2; eauto. }
    apply K. exact BS. }
  intros _. apply kept_bind; [exact RT| |].
  { apply kept_iter; auto. intros m I s. apply P. apply in_or_app; auto. }
  intros _ s BS. unfold bind. pose proof (L2 s BS) as BS'. pose proof (L3 s) as B.
  destruct (lk_link lk s) as [s' [b|e]]; auto. split; [|apply BS']. cbn. apply B; auto.
Qed.

Lemma bytes_history : forall c (lks : linker -> Prop), byte_tables c -> plugins_keep bytes_kept c ->
  passes_keep bytes_kept c ->
  (forall lk, lks lk -> linker_keeps bytes_kept lk /\
     forall s b, byte_state s -> snd (lk_link lk s) = Ok b -> Forall is_byte b) ->
  forall a b, history c lks a b -> bytes_kept a b.
Proof.
  intros c lks T P PS L a b H. pose proof bytes_refl as RR. pose proof bytes_trans as RT.
  induction H; auto.
  - eapply RT; [exact IHhistory|]. eapply (events_keep c (registered c)); eauto.
    + apply byte_event; auto.
    + apply assemble_registered.
  - eapply RT; [exact IHhistory|]. destruct (L lk H0). apply bytes_link; auto.
Qed.

(** ** Sections *)

Fixpoint otiled (l : list section) (e : Z) : Prop :=
  match l with
  | [] => True
  | a :: t =>
      match t with
      | [] => sc_offset a <= e
      | b :: _ => sc_size a = Some (sc_offset b - sc_offset a) /\ sc_offset a <= sc_offset b /\
                  otiled t e
      end
  end.

Definition last_key (l : list (str * section)) : option str :=
  match rev l with (k, _) :: _ => Some k | [] => None end.

Definition sect_inv (s : st) : Prop :=
  NoDup (map fst (sections s)) /\ current_section s = last_key (sections s) /\
  (~ In [] (map fst (sections s)) -> otiled (map snd (sections s)) (zlen (assembled s))).

Lemma otiled_grow : forall l e e', e <= e' -> otiled l e -> otiled l e'.
Proof.
  induction l as [|a [|b l] IH]; intros e e' L H; [exact H|cbn in *; lia|].
  destruct H as (H1 & H2 & H3). split; [|split]; [exact H1|exact H2|]. eapply IH; eauto.
Qed.
Lemma tiled_otiled : forall l e, tiled l e -> otiled l e.
Proof.
  induction l as [|a [|b l] IH]; intros e H; [exact H|apply H|].
  destruct H as (H1 & H2 & H3). split; [|split]; [exact H1|exact H2|]. apply (IH e). exact H3.
Qed.

Definition closed (e endaddr : Z) (a : section) : section :=
  MkSection (sc_start a) (sc_offset a) (sc_permissions a) (Some endaddr) (Some (e - sc_offset a)).

Lemma otiled_close : forall l a e x, otiled (l ++ [a]) e -> tiled (l ++ [closed e x a]) e.
Proof.
  induction l as [|b l IH]; intros a e x H.
  - cbn in *. auto.
  - cbn [app] in *. destruct l as [|d l].
    + cbn [app] in *. destruct H as (H1 & H2 & H3). cbn [tiled closed sc_offset].
      repeat split; auto.
    + cbn [app] in *. destruct H as (H1 & H2 & H3). split; [exact H1|split; [exact H2|]].
      apply (IH a e x). exact H3.
Qed.
Lemma tiled_snoc : forall l e a, tiled l e -> sc_offset a = e -> otiled (l ++ [a]) e.
Proof.
  induction l as [|b l IH]; intros e a H E; [cbn; lia|]. cbn [app].
  destruct l as [|d l].
  - cbn [app]. destruct H as (H1 & H2 & _). cbn [otiled]. rewrite E. repeat split; auto. lia.
  - destruct H as (H1 & H2 & H3). split; [|split]; [exact H1|exact H2|]. apply (IH e a H3 E).
Qed.

Lemma str_eqb_spec : forall a b, str_eqb a b = true <-> a = b.
Proof. intros. split; [apply str_eqb_eq|intros ->; apply str_eqb_refl]. Qed.
Lemma dset_last : forall V (l : list (str * V)) k v w, ~ In k (map fst l) ->
  dset str_eqb (l ++ [(k, v)]) k w = l ++ [(k, w)].
Proof.
  induction l as [|[k' v'] l IH]; intros k v w N; cbn [app dset].
  - rewrite str_eqb_refl. reflexivity.
  - destruct (str_eqb k k') eqn:E.
    + apply str_eqb_spec in E. subst. exfalso. apply N. left. reflexivity.
    + f_equal. apply IH. intros I. apply N. right. exact I.
Qed.
Lemma dget_last : forall V (l : list (str * V)) k v, ~ In k (map fst l) ->
  dget str_eqb (l ++ [(k, v)]) k = Some v.
Proof.
  induction l as [|[k' v'] l IH]; intros k v N; cbn [app dget].
  - rewrite str_eqb_refl. reflexivity.
  - destruct (str_eqb k k') eqn:E.
    + apply str_eqb_spec in E. subst. exfalso. apply N. left. reflexivity.
    + apply IH. intros I. apply N. right. exact I.
Qed.
Lemma dmem_In : forall V (l : list (str * V)) k, dmem str_eqb l k = true <-> In k (map fst l).
Proof.
  intros V l k. unfold dmem. induction l as [|[k' v'] l IH]; cbn [dget map fst In].
  - split; [discriminate|contradiction].
  - destruct (str_eqb k k') eqn:E.
    + apply str_eqb_spec in E. subst. split; auto.
    + rewrite IH. split; auto. intros [->|I]; auto. rewrite str_eqb_refl in E. discriminate.
Qed.
Lemma last_key_snoc : forall l k v, last_key (l ++ [(k, v)]) = Some k.
Proof. intros. unfold last_key. rewrite rev_app_distr. reflexivity. Qed.

(** The section table after closing the open section. *)
Lemma close_sections : forall s, NoDup (map fst (sections s)) ->
  current_section s = last_key (sections s) ->
  (sections (close_section s) = sections s /\
   (sections s = [] \/ In [] (map fst (sections s)))) \/
  exists l k a, k <> [] /\ sections s = l ++ [(k, a)] /\
    sections (close_section s) = l ++ [(k, closed (zlen (assembled s)) (pc s) a)].
Proof.
  intros s ND C. destruct (rev (sections s)) as [|[k a] r] eqn:R.
  - left. assert (E : sections s = []).
    { rewrite <- (rev_involutive (sections s)), R. reflexivity. }
    unfold close_section. rewrite C. unfold last_key. rewrite R. auto.
  - assert (E : sections s = rev r ++ [(k, a)]).
    { rewrite <- (rev_involutive (sections s)), R. reflexivity. }
    assert (L : last_key (sections s) = Some k) by (unfold last_key; rewrite R; reflexivity).
    rewrite L in C. rewrite E in ND. rewrite map_app in ND. cbn [map fst] in ND.
    assert (N : ~ In k (map fst (rev r))).
    { apply NoDup_remove_2 in ND. rewrite app_nil_r in ND. exact ND. }
    destruct k as [|x k].
    + left. unfold close_section. rewrite C. split; auto. right. rewrite E, map_app.
      apply in_or_app. right. left. reflexivity.
    + right. exists (rev r), (x :: k), a. split; [discriminate|]. split; auto.
      unfold close_section. rewrite C, E, dget_last by auto. cbn [sections set_sections].
      rewrite dset_last by auto. reflexivity.
Qed.

Lemma close_same : forall s, let s' := close_section s in
  assembled s' = assembled s /\ pc s' = pc s /\ current_section s' = current_section s /\
  exports s' = exports s /\ labels s' = labels s.
Proof. intros s. cbv zeta. rewrite close_section_eq. repeat split. Qed.

Lemma close_inv : forall s, sect_inv s -> sect_inv (close_section s) /\
  (~ In [] (map fst (sections s)) -> tiled (map snd (sections (close_section s))) (zlen (assembled s))) /\
  map fst (sections (close_section s)) = map fst (sections s).
Proof.
  intros s (ND & C & T). destruct (close_same s) as (A & P & CS & _).
  destruct (close_sections s ND C) as [[E D]|(l & k & a & N & E & E')].
  - assert (X : ~ In [] (map fst (sections s)) -> sections s = []) by (intros; destruct D; tauto).
    split; [|split].
    + split; [rewrite E; auto|]. split; [rewrite E, CS; auto|]. rewrite E, A. auto.
    + intros N. rewrite E, (X N). exact I.
    + rewrite E. reflexivity.
  - assert (K : map fst (sections (close_section s)) = map fst (sections s)).
    { rewrite E, E', !map_app. reflexivity. }
    assert (TT : ~ In [] (map fst (sections s)) ->
       tiled (map snd (sections (close_section s))) (zlen (assembled s))).
    { intros NE. specialize (T NE). rewrite E' , map_app. cbn [map snd].
      rewrite E, map_app in T. apply otiled_close. exact T. }
    split; [|split]; auto. split; [rewrite K; auto|]. split.
    + rewrite CS, C, E, E', !last_key_snoc. reflexivity.
    + rewrite K, A. intros NE. apply tiled_otiled. auto.
Qed.

Lemma sect_event : forall c, plugins_keep sections_untouched c ->
  forall a b, event c (registered c) a b -> sect_inv a -> sect_inv b.
Proof.
  intros c [P1 P2] a b E I.
  assert (KEEP : forall a b, sections_untouched a b -> sect_inv a -> sect_inv b).
  { clear. intros a b (S & C & _ & [t X]) (ND & K & T). split; [rewrite S; auto|].
    split; [rewrite S, C; auto|]. rewrite S, X. intros N. eapply otiled_grow; [|auto].
    rewrite zlen_app. unfold zlen. lia. }
  destruct E; try exact I;
    try (eapply KEEP; [|exact I]; repeat split; try apply extends_refl; eexists; reflexivity).
  - eapply KEEP; eauto.
  - destruct H as [k H]. eapply KEEP; eauto.
  - apply close_inv. auto.
  - cbv zeta. pose proof (close_inv _ I) as ((ND & C & T) & TT & K).
    assert (F : ~ In name (map fst (sections (close_section s)))).
    { rewrite K. intros X. apply dmem_In in X. congruence. }
    destruct (close_same s) as (A & P & _).
    set (s1 := close_section s) in *.
    assert (DS : dset str_eqb (sections s1) name
       (MkSection (pc s1) (zlen (assembled s1)) perms None None) =
       sections s1 ++ [(name, MkSection (pc s1) (zlen (assembled s1)) perms None None)]).
    { apply dset_new. destruct (dmem str_eqb (sections s1) name) eqn:D; auto.
      apply dmem_In in D. contradiction. }
    unfold sect_inv. cbn [sections set_sections current_section assembled]. rewrite DS.
    split; [|split].
    + rewrite map_app. cbn [map fst]. rewrite <- (rev_involutive (map fst (sections s1) ++ _)).
      apply NoDup_rev. rewrite rev_app_distr. cbn [rev app]. constructor; [|apply NoDup_rev; auto].
      rewrite <- in_rev. exact F.
    + rewrite last_key_snoc. reflexivity.
    + intros N. rewrite map_app. cbn [map snd]. rewrite A. apply tiled_snoc; [|reflexivity].
      apply TT. intros X. apply N. rewrite map_app, K. apply in_or_app. auto.
Qed.

Lemma persist_refl : forall s, sections_persist s s.
Proof. intros s name sc H. exists sc. repeat split; auto. Qed.
Lemma persist_trans : forall a b d, sections_persist a b -> sections_persist b d -> sections_persist a d.
Proof.
  intros a b d H1 H2 name sc H. destruct (H1 _ _ H) as (x & X & Y1 & Y2 & Y3).
  destruct (H2 _ _ X) as (y & Y & Z1 & Z2 & Z3). exists y. repeat split; auto; congruence.
Qed.
Lemma dget_dset : forall V (d : list (str * V)) k v k',
  dget str_eqb (dset str_eqb d k v) k' = if str_eqb k' k then Some v else dget str_eqb d k'.
Proof.
  induction d as [|[a x] d IH]; intros k v k'; cbn [dset dget]; auto.
  destruct (str_eqb k a) eqn:E.
  - apply str_eqb_spec in E. subst. cbn [dget]. destruct (str_eqb k' a); auto.
  - cbn [dget]. destruct (str_eqb k' a) eqn:E'; auto.
    apply str_eqb_spec in E'. subst. destruct (str_eqb a k) eqn:E2; auto.
    apply str_eqb_spec in E2. subst. rewrite str_eqb_refl in E. discriminate.
Qed.
Lemma persist_close : forall s, sections_persist s (close_section s).
Proof.
  intros s name sc H. unfold close_section. destruct (current_section s) as [[|x n]|];
    try (exists sc; repeat split; auto; fail).
  destruct (dget str_eqb (sections s) (x :: n)) as [a|] eqn:E; [|exists sc; repeat split; auto].
  cbn [sections set_sections]. rewrite dget_dset. destruct (str_eqb name (x :: n)) eqn:Q.
  - apply str_eqb_spec in Q. subst. rewrite E in H. injection H as <-. eexists. repeat split; auto.
  - exists sc. repeat split; auto.
Qed.
Lemma persist_event : forall c, plugins_keep sections_untouched c ->
  forall a b, event c (registered c) a b -> sections_persist a b.
Proof.
  intros c [P1 P2] a b E.
  assert (KEEP : forall a b, sections_untouched a b -> sections_persist a b).
  { clear. intros a b (S & _) name sc H. exists sc. rewrite S. repeat split; auto. }
  destruct E; try (apply KEEP; repeat split; try apply extends_refl; eexists; reflexivity).
  - apply KEEP. eapply P1; exact H.
  - destruct H as [k H]. apply KEEP. eapply P2; exact H.
  - apply persist_close.
  - cbv zeta. apply (persist_trans _ _ _ (persist_close s)). intros n sc HH.
    cbn [sections set_sections]. rewrite dget_dset. destruct (str_eqb n name) eqn:Q.
    + exfalso. apply str_eqb_spec in Q. subst.
      assert (D : dmem str_eqb (sections (close_section s)) name = true).
      { unfold dmem. rewrite HH. reflexivity. }
      apply dmem_In in D. revert D. unfold close_section.
      destruct (current_section s) as [[|x m]|]; try (intros D; apply dmem_In in D; congruence).
      destruct (dget str_eqb (sections s) (x :: m)) eqn:G; [|intros D; apply dmem_In in D; congruence].
      cbn [sections set_sections]. intros D. apply dmem_In in D. unfold dmem in *.
      rewrite dget_dset in D. destruct (str_eqb name (x :: m)) eqn:Q; [|destruct (dget str_eqb (sections s) name); discriminate].
      apply str_eqb_spec in Q. subst. rewrite G in H0. discriminate.
    + exists sc. repeat split; auto.
  - intros n sc HH. exists sc. repeat split; auto.
Qed.

Lemma exports_event : forall c, plugins_keep sections_untouched c ->
  forall a b, event c (registered c) a b -> NoDup (exports a) -> NoDup (exports b).
Proof.
  intros c [P1 P2] a b E I. destruct E; try exact I.
  - destruct (P1 _ _ tokens s H) as (_ & _ & X & _). rewrite X. auto.
  - destruct H as [k H]. destruct (P2 _ _ tokens s H) as (_ & _ & X & _). rewrite X. auto.
  - destruct (close_same s) as (_ & _ & _ & X & _). rewrite X. auto.
  - cbv zeta. cbn [exports set_sections]. destruct (close_same s) as (_ & _ & _ & X & _).
    rewrite X. auto.
  - cbn [exports set_exports]. rewrite <- (rev_involutive (exports s ++ [name])).
    apply NoDup_rev. rewrite rev_app_distr. cbn [rev app]. constructor; [|apply NoDup_rev; auto].
    rewrite <- in_rev. exact H.
Qed.

(** The last action of a successful assemble. *)
Lemma assemble_closes : forall c fuel text s s', assemble c fuel text s = (s', Ok tt) ->
  exists s1, s' = close_section s1.
Proof.
  intros c fuel text s s' H.
  assert (T : forall m : M unit, bind m (fun _ => assemble_tail c) s = (s', Ok tt) ->
    exists s1, s' = close_section s1).
  { intros m E. unfold bind in E. destruct (m s) as [s2 [[]|e]]; [|discriminate].
    unfold assemble_tail, bind, get in E.
    match type of E with (match ?X with _ => _ end) = _ => destruct X as [s3 [u|e]] end;
      [|discriminate].
    injection E as <-. eexists. reflexivity. }
  destruct fuel; cbn [assemble] in H; unfold bind at 1, lift in H;
    destruct (tokenize text) as [stmts|e]; try discriminate; eapply T; exact H.
Qed.

Lemma close_idem : forall s, close_section (close_section s) = close_section s.
Proof.
  intros s. rewrite (close_section_eq (close_section s)).
  destruct (close_same s) as (A & P & C & _).
  assert (E : sections (close_section (close_section s)) = sections (close_section s)).
  { unfold close_section. destruct (current_section s) as [[|x n]|] eqn:CS; try (rewrite CS; reflexivity).
    destruct (dget str_eqb (sections s) (x :: n)) as [a|] eqn:G; [|rewrite CS, G; reflexivity].
    cbn [current_section set_sections sections]. rewrite ?CS, dget_dset, str_eqb_refl.
    cbn [sections set_sections assembled sc_offset sc_start sc_permissions].
    match goal with |- dset _ (dset _ _ _ ?a) _ ?b = _ => change b with a; set (v := a) end.
    clear. induction (sections s) as [|[k y] l IH]; cbn [dset].
    - rewrite str_eqb_refl. reflexivity.
    - destruct (str_eqb (x :: n) k) eqn:Q; cbn [dset]; rewrite Q; [reflexivity|]. f_equal. apply IH. }
  rewrite E. destruct (close_section s); reflexivity.
Qed.
