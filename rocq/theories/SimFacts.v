(** Lemmas about agreeing states. *)
From Verif Require Import Py PyFacts Utils Tokenizer State Assembler SpecExec SpecTok TokFacts Events ExecFacts SpecSim.
Local Open Scope Z_scope.

Section Sim.
  Context (lg ln : bool).
  Notation agr := (agree lg ln).

  (** The two computations agree when started in s1 and s2. *)
  Definition rat {A} (m1 m2 : M A) (s1 s2 : st) : Prop :=
    agr (fst (m1 s1)) (fst (m2 s2)) /\ snd (m2 s2) = snd (m1 s1).

  Lemma rat_obl : forall A (m : M A), oblivious lg ln m <-> forall s1 s2, agr s1 s2 -> rat m m s1 s2.
  Proof. reflexivity. Qed.

  Lemma rat_bind : forall A B (m1 m2 : M A) (k1 k2 : A -> M B) s1 s2, rat m1 m2 s1 s2 ->
    (forall a t1 t2, agr t1 t2 -> rat (k1 a) (k2 a) t1 t2) -> rat (bind m1 k1) (bind m2 k2) s1 s2.
  Proof.
    intros A B m1 m2 k1 k2 s1 s2 [H1 H2] K. unfold rat, bind.
    destruct (m1 s1) as [t1 r1], (m2 s2) as [t2 r2]. cbn [fst snd] in *. subst r2.
    destruct r1; [apply K; auto|split; auto].
  Qed.
  Lemma rat_get : forall B (k1 k2 : st -> M B) s1 s2, rat (k1 s1) (k2 s2) s1 s2 ->
    rat (bind get k1) (bind get k2) s1 s2.
  Proof. intros. exact H. Qed.
  Lemma rat_modify : forall f1 f2 s1 s2, agr (f1 s1) (f2 s2) -> rat (modify f1) (modify f2) s1 s2.
  Proof. intros. split; auto. Qed.
  Lemma rat_same : forall A (r : res A) s1 s2, agr s1 s2 -> rat (fun s => (s, r)) (fun s => (s, r)) s1 s2.
  Proof. intros. split; auto. Qed.
  Lemma rat_lift : forall A (r : res A) s1 s2, agr s1 s2 -> rat (lift r) (lift r) s1 s2.
  Proof. intros. split; auto. Qed.
  Lemma rat_ret : forall A (a : A) s1 s2, agr s1 s2 -> rat (ret a) (ret a) s1 s2.
  Proof. intros. split; auto. Qed.
  Lemma rat_araise : forall A e s1 s2, agr s1 s2 -> rat (@araise A e) (@araise A e) s1 s2.
  Proof. intros. split; auto. Qed.
  Lemma rat_praise : forall A e s1 s2, agr s1 s2 -> rat (@praise A e) (@praise A e) s1 s2.
  Proof. intros. split; auto. Qed.

  Lemma same_stmt_refl : forall x, same_stmt ln x x.
  Proof. intros. repeat split. Qed.
  Lemma same_macro_refl : forall x, same_macro ln x x.
  Proof.
    intros. repeat split. induction (m_body (snd x)); constructor; auto. apply same_stmt_refl.
  Qed.
  Lemma agree_refl : forall s, agr s s.
  Proof.
    intros s. unfold agree. repeat (split; [reflexivity|]). split.
    { induction (macros s); constructor; auto. apply same_macro_refl. }
    repeat (split; [reflexivity|]). split; [destruct ln; reflexivity|].
    repeat (split; [reflexivity|]). reflexivity.
  Qed.

  Ltac fields H := destruct H as (E1 & E2 & E3 & E4 & E5 & E6 & E7 & E8 & E9 & E10 & E11 & E12 & E13 & E14 & E15 & E16 & E17 & E18).

  Lemma agree_set_assembled : forall s1 s2 b, agr s1 s2 -> agr (set_assembled s1 b) (set_assembled s2 b).
  Proof. intros s1 s2 b H. fields H. unfold agree. cbn. tauto. Qed.
  Lemma agree_set_labels : forall s1 s2 b, agr s1 s2 -> agr (set_labels s1 b) (set_labels s2 b).
  Proof. intros s1 s2 b H. fields H. unfold agree. cbn. tauto. Qed.
  Lemma agree_set_org : forall s1 s2 a b d, agr s1 s2 -> agr (set_org s1 a b d) (set_org s2 a b d).
  Proof. intros s1 s2 a b d H. fields H. unfold agree. cbn. tauto. Qed.
  Lemma agree_set_counter : forall s1 s2 b, agr s1 s2 -> agr (set_counter s1 b) (set_counter s2 b).
  Proof. intros s1 s2 b H. fields H. unfold agree. cbn. tauto. Qed.
  Lemma agree_set_refs : forall s1 s2 b, agr s1 s2 ->
    agr (set_labels_addresses s1 b) (set_labels_addresses s2 b).
  Proof. intros s1 s2 b H. fields H. unfold agree. cbn. tauto. Qed.
  Lemma agree_set_macros : forall s1 s2 m1 m2, agr s1 s2 -> Forall2 (same_macro ln) m1 m2 ->
    agr (set_macros s1 m1) (set_macros s2 m2).
  Proof. intros s1 s2 m1 m2 H M. fields H. unfold agree. cbn. tauto. Qed.
  Lemma agree_set_recording : forall s1 s2 b, agr s1 s2 ->
    agr (set_macro_recording s1 b) (set_macro_recording s2 b).
  Proof. intros s1 s2 b H. fields H. unfold agree. cbn. tauto. Qed.
  Lemma agree_set_repeat : forall s1 s2 b, agr s1 s2 -> agr (set_repeat s1 b) (set_repeat s2 b).
  Proof. intros s1 s2 b H. fields H. unfold agree. cbn. tauto. Qed.
  Lemma agree_set_log : forall s1 s2 b, agr s1 s2 -> agr (set_log s1 b) (set_log s2 b).
  Proof. intros s1 s2 b H. fields H. unfold agree. cbn. tauto. Qed.
  Lemma agree_set_exports : forall s1 s2 b, agr s1 s2 -> agr (set_exports s1 b) (set_exports s2 b).
  Proof. intros s1 s2 b H. fields H. unfold agree. cbn. tauto. Qed.
  Lemma agree_set_defines : forall s1 s2 b, agr s1 s2 -> agr (set_defines s1 b) (set_defines s2 b).
  Proof. intros s1 s2 b H. fields H. unfold agree. cbn. tauto. Qed.
  Lemma agree_set_cartridge : forall s1 s2 b, agr s1 s2 -> agr (set_cartridge s1 b) (set_cartridge s2 b).
  Proof. intros s1 s2 b H. fields H. unfold agree. cbn. tauto. Qed.
  Lemma agree_set_bits : forall s1 s2 b, agr s1 s2 -> agr (set_x86_bits s1 b) (set_x86_bits s2 b).
  Proof. intros s1 s2 b H. fields H. unfold agree. cbn. tauto. Qed.
  Lemma agree_set_linker : forall s1 s2 h r, agr s1 s2 -> agr (set_linker s1 h r) (set_linker s2 h r).
  Proof. intros s1 s2 h r H. fields H. unfold agree. cbn. tauto. Qed.

  Lemma agree_assembled : forall s1 s2, agr s1 s2 -> assembled s2 = assembled s1.
  Proof. intros s1 s2 H. fields H. auto. Qed.
  Lemma agree_labels : forall s1 s2, agr s1 s2 -> labels s2 = labels s1.
  Proof. intros s1 s2 H. fields H. auto. Qed.
  Lemma agree_org : forall s1 s2, agr s1 s2 -> current_org s2 = current_org s1.
  Proof. intros s1 s2 H. fields H. auto. Qed.
  Lemma agree_org_end : forall s1 s2, agr s1 s2 -> current_org_end s2 = current_org_end s1.
  Proof. intros s1 s2 H. fields H. auto. Qed.
  Lemma agree_counter : forall s1 s2, agr s1 s2 -> org_counter s2 = org_counter s1.
  Proof. intros s1 s2 H. fields H. auto. Qed.
  Lemma agree_refs : forall s1 s2, agr s1 s2 -> labels_addresses s2 = labels_addresses s1.
  Proof. intros s1 s2 H. fields H. auto. Qed.
  Lemma agree_macros : forall s1 s2, agr s1 s2 -> Forall2 (same_macro ln) (macros s1) (macros s2).
  Proof. intros s1 s2 H. fields H. auto. Qed.
  Lemma agree_recording : forall s1 s2, agr s1 s2 -> macro_recording s2 = macro_recording s1.
  Proof. intros s1 s2 H. fields H. auto. Qed.
  Lemma agree_repeat : forall s1 s2, agr s1 s2 -> repeat_ s2 = repeat_ s1.
  Proof. intros s1 s2 H. fields H. auto. Qed.
  Lemma agree_current : forall s1 s2, agr s1 s2 -> current_section s2 = current_section s1.
  Proof. intros s1 s2 H. fields H. auto. Qed.
  Lemma agree_exports : forall s1 s2, agr s1 s2 -> exports s2 = exports s1.
  Proof. intros s1 s2 H. fields H. auto. Qed.
  Lemma agree_defines : forall s1 s2, agr s1 s2 -> defines s2 = defines s1.
  Proof. intros s1 s2 H. fields H. auto. Qed.
  Lemma agree_cartridge : forall s1 s2, agr s1 s2 -> cartridge_set s2 = cartridge_set s1.
  Proof. intros s1 s2 H. fields H. auto. Qed.
  Lemma agree_bits : forall s1 s2, agr s1 s2 -> x86_bits s2 = x86_bits s1.
  Proof. intros s1 s2 H. fields H. auto. Qed.
  Lemma agree_pc : forall s1 s2, agr s1 s2 -> pc s2 = pc s1.
  Proof. intros s1 s2 H. fields H. unfold pc. congruence. Qed.

  (** Rewrite what is read from the second state into the first. *)
  Ltac same H := rewrite ?(agree_assembled _ _ H), ?(agree_labels _ _ H), ?(agree_org _ _ H),
    ?(agree_org_end _ _ H), ?(agree_counter _ _ H), ?(agree_refs _ _ H), ?(agree_recording _ _ H),
    ?(agree_repeat _ _ H), ?(agree_current _ _ H), ?(agree_exports _ _ H), ?(agree_defines _ _ H),
    ?(agree_cartridge _ _ H), ?(agree_bits _ _ H), ?(agree_pc _ _ H).

  (** *** Sections *)
  Lemma dset_dset : forall V (d : list (str * V)) k v w,
    dset str_eqb (dset str_eqb d k v) k w = dset str_eqb d k w.
  Proof.
    induction d as [|[a x] d IH]; intros k v w; cbn [dset].
    - rewrite (proj2 (str_eqb_spec k k)) by auto. reflexivity.
    - destruct (str_eqb k a) eqn:E; cbn [dset]; rewrite E; [reflexivity|]. rewrite IH. reflexivity.
  Qed.
  Lemma dget_dset_same : forall V (d : list (str * V)) k v, dget str_eqb (dset str_eqb d k v) k = Some v.
  Proof.
    induction d as [|[a x] d IH]; intros k v; cbn [dset dget].
    - rewrite (proj2 (str_eqb_spec k k)) by auto. reflexivity.
    - destruct (str_eqb k a) eqn:E; cbn [dget]; rewrite E; auto.
  Qed.
  Lemma dmem_dset : forall V (d : list (str * V)) k v k', dmem str_eqb d k = true ->
    dmem str_eqb (dset str_eqb d k v) k' = dmem str_eqb d k'.
  Proof.
    intros V d k v k' H.
    destruct (dmem str_eqb (dset str_eqb d k v) k') eqn:A, (dmem str_eqb d k') eqn:B; auto.
    - apply dmem_In in A. assert (X : In k' (map fst d)); [|apply dmem_In in X; congruence].
      clear B. apply dmem_In in H. revert A H. induction d as [|[a x] d IH]; cbn [dset map fst In]; [tauto|].
      destruct (str_eqb k a) eqn:E; cbn [map fst In]; auto.
      intros [A|A] [H|H]; auto. subst. rewrite (proj2 (str_eqb_spec k k)) in E; congruence.
    - apply dmem_In in B. assert (X : In k' (map fst (dset str_eqb d k v))); [|apply dmem_In in X; congruence].
      clear A H. induction d as [|[a x] d IH]; cbn [dset map fst In] in *; [tauto|].
      destruct (str_eqb k a) eqn:E; cbn [map fst In]; tauto.
  Qed.
  Lemma dget_dmem : forall V (d : list (str * V)) k v, dget str_eqb d k = Some v -> dmem str_eqb d k = true.
  Proof. intros V d k v H. unfold dmem. rewrite H. reflexivity. Qed.
  Lemma forget_dmem : forall cur l k, dmem str_eqb (forget_end cur l) k = dmem str_eqb l k.
  Proof.
    intros [[|c n]|] l k; cbn [forget_end]; auto.
    destruct (dget str_eqb l (c :: n)) eqn:E; auto. apply dmem_dset. eapply dget_dmem; eauto.
  Qed.
  Lemma forget_get : forall c n l, dget str_eqb (forget_end (Some (c :: n)) l) (c :: n) =
    option_map (fun x => MkSection (sc_start x) (sc_offset x) (sc_permissions x) None None) (dget str_eqb l (c :: n)).
  Proof.
    intros. cbn [forget_end]. destruct (dget str_eqb l (c :: n)) eqn:E; cbn [option_map]; auto.
    apply dget_dset_same.
  Qed.
  Lemma agree_dmem : forall s1 s2 k, agr s1 s2 ->
    dmem str_eqb (sections s2) k = dmem str_eqb (sections s1) k.
  Proof.
    intros s1 s2 k H. fields H. destruct ln; [|congruence].
    rewrite <- (forget_dmem (current_section s1) (sections s2)), E11. apply forget_dmem.
  Qed.

  Lemma close_eq : forall s1 s2, agr s1 s2 -> sections (close_section s2) = sections (close_section s1).
  Proof.
    intros s1 s2 H. unfold close_section. rewrite (agree_current _ _ H).
    fields H. destruct (current_section s1) as [[|ch n]|] eqn:CS.
    - cbn [forget_end] in E11. destruct ln; auto.
    - destruct ln.
      + pose proof (f_equal (fun l => dget str_eqb l (ch :: n)) E11) as G. cbv beta in G.
        rewrite !forget_get in G.
        cbn [forget_end] in E11.
        destruct (dget str_eqb (sections s1) (ch :: n)) as [x|], (dget str_eqb (sections s2) (ch :: n)) as [y|];
          cbn [option_map] in G; try discriminate; auto.
        injection G as G1 G2 G3. cbn [sections set_sections]. unfold pc. rewrite ?E1, ?E3, ?E5. rewrite G1, G2, G3.
        set (v := MkSection _ _ _ _ _).
        pose proof (f_equal (fun l => dset str_eqb l (ch :: n) v) E11) as X. cbv beta in X.
        rewrite !dset_dset in X. exact X.
      + rewrite E11. destruct (dget str_eqb (sections s1) (ch :: n)); auto.
        cbn [sections set_sections]. unfold pc. rewrite ?E1, ?E3, ?E5. reflexivity.
    - cbn [forget_end] in E11. destruct ln; auto.
  Qed.
  Lemma agree_close : forall s1 s2, agr s1 s2 -> agr (close_section s1) (close_section s2).
  Proof.
    intros s1 s2 H. pose proof (close_eq _ _ H) as C.
    rewrite (close_section_eq s1), (close_section_eq s2), C. fields H.
    unfold agree. cbn. repeat (split; [assumption|]). split; [destruct ln; reflexivity|]. tauto.
  Qed.

  (** *** Macros *)
  Lemma macro_get : forall m1 m2 k, Forall2 (same_macro ln) m1 m2 ->
    match dget str_eqb m1 k, dget str_eqb m2 k with
    | Some a, Some b => m_args a = m_args b /\ Forall2 (same_stmt ln) (m_body a) (m_body b)
    | None, None => True
    | _, _ => False
    end.
  Proof.
    intros m1 m2 k H. induction H as [|[a x] [b y] m1 m2 (A & B & C) H IH]; cbn [dget]; auto.
    cbn [fst snd] in *. subst b. destruct (str_eqb k a); auto.
  Qed.
  Lemma macro_set : forall m1 m2 k x y, Forall2 (same_macro ln) m1 m2 ->
    m_args x = m_args y -> Forall2 (same_stmt ln) (m_body x) (m_body y) ->
    Forall2 (same_macro ln) (dset str_eqb m1 k x) (dset str_eqb m2 k y).
  Proof.
    intros m1 m2 k x y H A B. induction H as [|[a u] [b v] m1 m2 (A' & B' & C') H IH]; cbn [dset].
    - constructor; [|constructor]. repeat split; auto.
    - cbn [fst snd] in *. subst b. destruct (str_eqb k a); constructor; auto; repeat split; auto.
  Qed.
  Lemma body_nth : forall b1 b2 i, Forall2 (same_stmt ln) b1 b2 ->
    match nth_error b1 i, nth_error b2 i with
    | Some a, Some b => same_stmt ln a b
    | None, None => True
    | _, _ => False
    end.
  Proof.
    intros b1 b2 i H. revert i. induction H; intros [|i]; cbn [nth_error]; auto. apply IHForall2.
  Qed.
  Lemma body_replace : forall b1 b2 i x y, Forall2 (same_stmt ln) b1 b2 -> same_stmt ln x y ->
    Forall2 (same_stmt ln) (replace_nth i x b1) (replace_nth i y b2).
  Proof.
    intros b1 b2 i x y H S. revert i. induction H; intros [|i]; cbn [replace_nth]; constructor; auto.
  Qed.

  (** *** Automation for readers and emitters *)
  Lemma rat_parse : forall p t n b s1 s2, agr s1 s2 -> rat (m_parse_integer p t n b) (m_parse_integer p t n b) s1 s2.
  Proof. intros. unfold m_parse_integer, rat. cbn [fst snd]. same H. auto. Qed.
  Lemma rat_label : forall p t s1 s2, agr s1 s2 -> rat (m_label_absolute p t) (m_label_absolute p t) s1 s2.
  Proof. intros. unfold m_label_absolute, rat. cbn [fst snd]. same H. auto. Qed.
  Lemma rat_tok_at : forall t i s1 s2, agr s1 s2 -> rat (tok_at t i) (tok_at t i) s1 s2.
  Proof. intros. unfold tok_at. destruct (nth_error t i); split; auto. Qed.
  Lemma rat_open : forall A (f : str -> option A) n s1 s2, agr s1 s2 -> rat (open_file f n) (open_file f n) s1 s2.
  Proof. intros. unfold open_file. destruct (f n); split; auto. Qed.
  Lemma rat_emit : forall b s1 s2, agr s1 s2 -> rat (append_assembled_bytes b) (append_assembled_bytes b) s1 s2.
  Proof.
    intros. apply rat_modify. same H. apply agree_set_counter, agree_set_assembled. auto.
  Qed.
  Lemma rat_raw : forall b s1 s2, agr s1 s2 -> rat (append_raw b) (append_raw b) s1 s2.
  Proof. intros. apply rat_modify. same H. apply agree_set_assembled. auto. Qed.
  Lemma rat_ref : forall d s1 s2, agr s1 s2 -> rat (add_label_translation d) (add_label_translation d) s1 s2.
  Proof. intros. apply rat_modify. same H. apply agree_set_refs. auto. Qed.
End Sim.

Ltac same H := rewrite ?(agree_assembled _ _ _ _ H), ?(agree_labels _ _ _ _ H), ?(agree_org _ _ _ _ H),
    ?(agree_org_end _ _ _ _ H), ?(agree_counter _ _ _ _ H), ?(agree_refs _ _ _ _ H), ?(agree_recording _ _ _ _ H),
    ?(agree_repeat _ _ _ _ H), ?(agree_current _ _ _ _ H), ?(agree_exports _ _ _ _ H), ?(agree_defines _ _ _ _ H),
    ?(agree_cartridge _ _ _ _ H), ?(agree_bits _ _ _ _ H), ?(agree_pc _ _ _ _ H).

Ltac rstep :=
  match goal with
  | H : agree ?lg ?ln ?s1 ?s2 |- rat ?lg ?ln ?m1 ?m2 ?s1 ?s2 =>
      lazymatch m1 with
      | ret _ => exact (rat_ret lg ln _ _ s1 s2 H)
      | araise _ => exact (rat_araise lg ln _ _ s1 s2 H)
      | praise _ => exact (rat_praise lg ln _ _ s1 s2 H)
      | lift _ => exact (rat_lift lg ln _ _ s1 s2 H)
      | m_parse_integer _ _ _ _ => exact (rat_parse lg ln _ _ _ _ s1 s2 H)
      | m_label_absolute _ _ => exact (rat_label lg ln _ _ s1 s2 H)
      | tok_at _ _ => exact (rat_tok_at lg ln _ _ s1 s2 H)
      | open_file _ _ => exact (rat_open lg ln _ _ _ s1 s2 H)
      | append_assembled_bytes _ => exact (rat_emit lg ln _ s1 s2 H)
      | append_raw _ => exact (rat_raw lg ln _ s1 s2 H)
      | add_label_translation _ => exact (rat_ref lg ln _ s1 s2 H)
      | bind get _ => apply rat_get; cbv beta; rewrite ?(agree_dmem _ _ _ _ _ H); same H
      | bind (modify _) _ => fail
      | bind _ _ =>
          apply rat_bind; [|let a := fresh "a" in let t1 := fresh "t" in let t2 := fresh "t" in
             let h := fresh "AG" in clear H; intros a t1 t2 h]
      | (if ?b then _ else _) => destruct b
      | (match ?b with _ => _ end) => destruct b
      end
  end.
Ltac rgo := repeat rstep.
