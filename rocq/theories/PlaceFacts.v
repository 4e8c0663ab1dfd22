(** Successful assembly keeps references apart and inside the output. *)
From Coq Require Import Lia.
From Verif Require Import Py PyFacts Utils Tokenizer State Assembler SpecUtils SpecExec SpecLink
  UtilsFacts Events ExecFacts SpecCpu CpuFacts FitFacts SpecPlace.
Local Open Scope Z_scope.

Definition good (s s' : st) : Prop := tidy s ->
  tidy s' /\ extends (assembled s) (assembled s') /\
  later_refs s s' /\ extends (labels s) (labels s') /\
  (Forall ref_ok (labels_addresses s) -> Forall ref_ok (labels_addresses s')).

Lemma later_refl : forall s s', labels_addresses s' = labels_addresses s -> later_refs s s'.
Proof. intros s s' E. exists []. rewrite app_nil_r. auto. Qed.

Lemma good_refl : forall s, good s s.
Proof. intros s T. auto 6 using extends_refl, later_refl. Qed.
Lemma good_trans : forall a b d, good a b -> good b d -> good a d.
Proof.
  intros a b d H1 H2 T. destruct (H1 T) as (T1 & A1 & B1 & C1 & D1). destruct (H2 T1) as (T2 & A2 & B2 & C2 & D2).
  split; [auto|]. split; [eapply extends_trans; eauto|]. split; [|split; [eapply extends_trans; eauto|auto]].
  destruct B1 as (l1 & E1 & F1). destruct B2 as (l2 & E2 & F2). exists (l1 ++ l2). split; [rewrite E2, E1, app_assoc; auto|].
  apply Forall_app. split; auto. destruct A1 as (x & A1). eapply Forall_impl; [|exact F2]. cbv beta. intros r.
  rewrite A1, zlen_app. assert (0 <= zlen x) by apply zlen_nonneg. lia.
Qed.
Lemma good_same : forall s s', assembled s' = assembled s -> labels_addresses s' = labels_addresses s ->
  labels s' = labels s -> good s s'.
Proof.
  intros s s' A R L T. split; [|split; [|split; [|split]]]; try (unfold tidy in *; rewrite ?A, ?R, ?L; auto using extends_refl; fail).
  apply later_refl; auto.
Qed.
Lemma good_append : forall s s' b, assembled s' = assembled s ++ b -> labels_addresses s' = labels_addresses s ->
  labels s' = labels s -> good s s'.
Proof.
  intros s s' b A R L (ivs & F & I & D). split; [|split; [eexists; exact A|split; [apply later_refl; auto|rewrite R, L; auto using extends_refl]]].
  exists ivs. rewrite R. split; auto. split; auto. rewrite A, zlen_app. eapply Forall_impl; [|exact I].
  intros iv H. assert (X : 0 <= zlen b) by apply zlen_nonneg. cbv beta in *. split; [apply H|]. destruct H as [_ H]. lia.
Qed.

Lemma dset_app : forall V (l : list (Z * V)) k v, ~ In k (map fst l) -> dset Z.eqb l k v = l ++ [(k, v)].
Proof.
  induction l as [|[k' v'] l IH]; intros k v N; [reflexivity|]. cbn [dset app]. cbn [map fst In] in N.
  destruct (k =? k') eqn:E; [apply Z.eqb_eq in E; subst; tauto|]. rewrite IH by tauto. reflexivity.
Qed.

Lemma forall2_keys : forall l ivs, Forall2 occupies l ivs -> map fst l = map fst ivs.
Proof. induction 1 as [|r iv l ivs [E _] F IH]; cbn [map]; congruence. Qed.

(** New references. *)
Lemma referring_new : forall ds ns s, Forall2 takes ds ns ->
  Forall2 (fun d n => 0 <= ld_offset d /\ 1 <= n) ds ns ->
  ForallOrdPairs apart (map (fun x => (ld_offset (fst x), ld_offset (fst x) + snd x)) (combine ds ns)) ->
  (forall k, In k (map fst (labels_addresses s)) -> k < zlen (assembled s) \/
     exists e, k = zlen (assembled s) + ld_offset e /\ forall d, In d ds -> ld_offset d <> ld_offset e) ->
  labels_addresses (referring s ds) =
    labels_addresses s ++ map (fun d => (zlen (assembled s) + ld_offset d, d)) ds.
Proof.
  induction ds as [|d ds IH]; intros ns s T P A K; [cbn; rewrite app_nil_r; reflexivity|].
  inversion T as [|? n ? ns' T1 T2]; subst. inversion P as [|? ? ? ? [P1 P2] P3]; subst.
  cbn [combine map fst snd] in A. inversion A as [|? ? A1 A2]; subst.
  assert (N : ~ In (zlen (assembled s) + ld_offset d) (map fst (labels_addresses s))).
  { intros I. destruct (K _ I) as [H|(e & E1 & E2)]; [lia|]. apply (E2 d); [left; auto|lia]. }
  cbn [referring]. rewrite IH with (ns := ns').
  - cbn [labels_addresses set_labels_addresses assembled]. rewrite dset_app by exact N. cbn [map].
    rewrite <- app_assoc. reflexivity.
  - auto.
  - auto.
  - auto.
  - cbn [labels_addresses set_labels_addresses assembled]. rewrite dset_app by exact N.
    intros k I. rewrite map_app, in_app_iff in I. destruct I as [I|[<-|[]]].
    + destruct (K k I) as [H|(e & E1 & E2)]; [auto|]. right. exists e. split; auto. intros d' I'. apply E2. right; auto.
    + right. exists d. split; [reflexivity|]. intros d' I' E.
      assert (exists n', In (d', n') (combine ds ns') /\ 1 <= n').
      { clear - P3 I'. induction P3 as [|x y l l' [H1 H2] H3 IH]; [contradiction|]. destruct I' as [->|I'].
        - exists y. split; [left; auto|auto].
        - destruct (IH I') as (n' & X & Y). exists n'. split; [right; auto|auto]. }
      destruct H as (n' & X & Y). rewrite Forall_forall in A1.
      specialize (A1 (ld_offset d', ld_offset d' + n')).
      assert (Z : In (ld_offset d', ld_offset d' + n') (map (fun x => (ld_offset (fst x), ld_offset (fst x) + snd x)) (combine ds ns'))).
      { apply in_map_iff. exists (d', n'). auto. }
      apply A1 in Z. unfold apart in Z. cbn [fst snd] in Z. lia.
Qed.

Lemma good_new : forall s ds ns b s', Forall2 takes ds ns -> (forall a d, In d ds -> ref_ok (a, d)) ->
  Forall2 (fun d n => 0 <= ld_offset d /\ 1 <= n /\ ld_offset d + n <= zlen b) ds ns ->
  ForallOrdPairs apart (map (fun x => (ld_offset (fst x), ld_offset (fst x) + snd x)) (combine ds ns)) ->
  emitted (referring s ds) b s' -> good s s'.
Proof.
  intros s ds ns b s' T RK P A E (ivs & F & I & D).
  assert (P' : Forall2 (fun d n => 0 <= ld_offset d /\ 1 <= n) ds ns).
  { clear - P. induction P; constructor; auto. lia. }
  assert (R : labels_addresses (referring s ds) =
    labels_addresses s ++ map (fun d => (zlen (assembled s) + ld_offset d, d)) ds).
  { apply (referring_new ds ns); auto. intros k K. left. rewrite (forall2_keys _ _ F) in K.
    apply in_map_iff in K. destruct K as (iv & <- & K). rewrite Forall_forall in I. apply I in K. lia. }
  pose proof (referring_same ds s) as RS. unfold emitted in E.
  assert (EA : assembled s' = assembled s ++ b) by (rewrite E, RS; reflexivity).
  assert (ER : labels_addresses s' = labels_addresses s ++ map (fun d => (zlen (assembled s) + ld_offset d, d)) ds)
    by (rewrite E; exact R).
  assert (EL : labels s' = labels s) by (rewrite E, RS; reflexivity).
  split; [|split; [eexists; exact EA|split; [|split; [rewrite EL; apply extends_refl|]]];
    [exists (map (fun d => (zlen (assembled s) + ld_offset d, d)) ds); split; [exact ER|];
     apply Forall_forall; intros x X; apply in_map_iff in X; destruct X as (d & <- & X); cbn [fst];
     assert (0 <= ld_offset d) by
       (clear - P X; induction P; [contradiction|]; destruct X as [->|X]; auto; lia); lia
    |]; intros FR; rewrite ER; apply Forall_app; split; [exact FR|]; apply Forall_forall; intros x X; apply in_map_iff in X;
    destruct X as (d & <- & X); apply RK; exact X].
  set (len := zlen (assembled s)) in *.
  exists (ivs ++ map (fun x => (len + ld_offset (fst x), len + ld_offset (fst x) + snd x)) (combine ds ns)).
  rewrite ER, EA, zlen_app. split; [|split].
  - apply Forall2_app; auto. clear - T. induction T; cbn [combine map]; constructor; auto.
    split; [reflexivity|]. cbn [fst snd]. replace (len + ld_offset x + y - (len + ld_offset x)) with y by ring. auto.
  - apply Forall_app. split.
    + eapply Forall_impl; [|exact I]. intros iv H. assert (X : 0 <= zlen b) by apply zlen_nonneg. cbv beta in *. fold len. lia.
    + assert (H : 0 <= zlen (assembled s)) by apply zlen_nonneg. fold len in H. fold len. clear - P H.
      induction P; cbn [combine map]; constructor; auto. cbn [fst snd]. lia.
  - assert (IV : Forall (fun iv => snd iv <= len) ivs) by (eapply Forall_impl; [|exact I]; intros iv H; apply H).
    assert (NW : Forall (fun iv => len <= fst iv)
      (map (fun x => (len + ld_offset (fst x), len + ld_offset (fst x) + snd x)) (combine ds ns))).
    { clear - P. induction P; cbn [combine map]; constructor; auto. cbn [fst]. lia. }
    assert (AP : ForallOrdPairs apart
      (map (fun x => (len + ld_offset (fst x), len + ld_offset (fst x) + snd x)) (combine ds ns))).
    { clear - A. induction (combine ds ns) as [|x l IH]; cbn [map] in *; [constructor|]. inversion A; subst.
      constructor; auto. rewrite Forall_forall in *. intros y Y. apply in_map_iff in Y. destruct Y as (z & <- & Y).
      specialize (H1 (ld_offset (fst z), ld_offset (fst z) + snd z)).
      assert (X : apart (ld_offset (fst x), ld_offset (fst x) + snd x) (ld_offset (fst z), ld_offset (fst z) + snd z)).
      { apply H1. apply in_map_iff. exists z. auto. }
      unfold apart in *. cbn [fst snd] in *. lia. }
    revert D IV NW AP. clear. generalize (map (fun x => (len + ld_offset (fst x), len + ld_offset (fst x) + snd x)) (combine ds ns)).
    intros l D IV NW AP. induction D as [|a m H D IH]; [exact AP|]. inversion IV; subst. cbn [app]. constructor; auto.
    apply Forall_app. split; auto. rewrite Forall_forall in *. intros y Y. apply NW in Y. left. lia.
Qed.

(** ** Successful runs *)

(** Any relation with the closure properties below holds between the ends of every
    successful run. *)
Definition runs (G : st -> st -> Prop) {A} (m : M A) (s : st) : Prop := forall s' a, m s = (s', Ok a) -> G s s'.

Record closed (G : st -> st -> Prop) : Prop := {
  cl_refl : forall s, G s s;
  cl_trans : forall a b d, G a b -> G b d -> G a d;
  cl_same : forall s s', assembled s' = assembled s -> labels_addresses s' = labels_addresses s ->
    labels s' = labels s -> cartridge_set s' = cartridge_set s -> G s s';
  cl_append : forall s s' b, assembled s' = assembled s ++ b -> labels_addresses s' = labels_addresses s ->
    labels s' = labels s -> cartridge_set s' = cartridge_set s -> G s s';
  cl_new : forall s ds ns b s', Forall2 takes ds ns -> (forall a d, In d ds -> ref_ok (a, d)) ->
    Forall2 (fun d n => 0 <= ld_offset d /\ 1 <= n /\ ld_offset d + n <= zlen b) ds ns ->
    ForallOrdPairs apart (map (fun x => (ld_offset (fst x), ld_offset (fst x) + snd x)) (combine ds ns)) ->
    emitted (referring s ds) b s' -> G s s';
  cl_label : forall s s' k l, assembled s' = assembled s -> labels_addresses s' = labels_addresses s ->
    labels s' = labels s ++ [(k, l)] -> cartridge_set s' = cartridge_set s -> G s s' }.

Section Runs.
Context (G : st -> st -> Prop) (CL : closed G).
Notation keeps := (runs G) (only parsing).

Lemma runs_reader : forall A (m : M A) s, reader m -> keeps m s.
Proof. intros A m s R s' a E. specialize (R s). rewrite E in R. cbn in R. subst. apply (cl_refl G CL). Qed.
Lemma runs_bind : forall A B (m : M A) (k : A -> M B) s, keeps m s ->
  (forall a s', m s = (s', Ok a) -> keeps (k a) s') -> keeps (bind m k) s.
Proof.
  intros A B m k s H K s' b E. unfold bind in E. destruct (m s) as [s1 [a|e]] eqn:F; [|discriminate].
  eapply (cl_trans G CL); [eapply H; eauto|]. eapply K; eauto.
Qed.
Lemma runs_read : forall A B (m : M A) (k : A -> M B) s, reader m ->
  (forall a, snd (m s) = Ok a -> keeps (k a) s) -> keeps (bind m k) s.
Proof.
  intros A B m k s R K s' b E. rewrite bind_reader in E by auto.
  destruct (snd (m s)) eqn:F; [|discriminate]. eapply K; eauto.
Qed.
Lemma runs_get : forall B (k : st -> M B) s, keeps (k s) s -> keeps (bind get k) s.
Proof. intros. exact H. Qed.
Lemma runs_modify : forall f s, G s (f s) -> keeps (modify f) s.
Proof. intros f s H s' a E. injection E as <- _. exact H. Qed.
Lemma runs_iter : forall A (f : A -> M unit) l s, (forall a s, In a l -> keeps (f a) s) -> keeps (iter f l) s.
Proof.
  induction l; intros s H; cbn [iter]; [apply runs_reader, reader_ret|].
  apply runs_bind; [apply H; left; auto|]. intros. apply IHl. intros; apply H; right; auto.
Qed.
Lemma runs_times : forall n f s, (forall s, keeps f s) -> keeps (times n f) s.
Proof.
  induction n; intros f s H; cbn [times]; [apply runs_reader, reader_ret|]. apply runs_bind; auto.
Qed.
Lemma runs_emit : forall b s, keeps (append_assembled_bytes b) s.
Proof. intros. apply runs_modify. eapply (cl_append G CL); reflexivity. Qed.
Lemma runs_raw : forall b s, keeps (append_raw b) s.
Proof. intros. apply runs_modify. eapply (cl_append G CL); reflexivity. Qed.

(** A neat handler. *)
Lemma runs_placed : forall s ds b s', Forall sound_ref ds -> placed (zlen b) ds ->
  emitted (referring s ds) b s' -> G s s'.
Proof.
  intros s ds b s' S (P & D) E. apply (cl_new G CL s ds (map ld_size ds) b s'); auto.
  - clear - S. induction S as [|d ds (A & _ & _ & H & _) S IH]; cbn [map]; constructor; auto. constructor; auto.
  - intros a d I. rewrite Forall_forall in S. apply S in I. unfold sound_ref in I. unfold ref_ok. cbn [snd]. intuition.
  - clear - S P. induction S as [|d ds (A & _) S IH]; cbn [map]; constructor; inversion P; subst; auto. lia.
  - clear - D. induction D as [|d ds H D IH]; cbn [map combine]; constructor; auto. cbn [fst snd].
    clear - H. induction ds; cbn [map combine]; constructor; inversion H; subst; auto.
Qed.

Section Keeps.
  Context (c : cfg).
  Let p := c_p c.

  Ltac rd := first
    [ apply reader_ret | apply reader_raise | apply reader_araise | apply reader_praise
    | apply reader_lift | apply reader_get | apply reader_parse | apply reader_tok_at
    | apply reader_int_arg | apply reader_fill_arg | apply reader_open_file
    | apply reader_parse_bytes | apply reader_csv | apply reader_json ].
  Ltac walk1 :=
    match goal with
    | |- runs G (bind get _) _ => apply runs_get
    | |- runs G (bind _ _) _ => apply runs_read; [solve [rd]|intros]
    | |- runs G (if ?b then _ else _) _ => destruct b eqn:?
    | |- runs G (match ?x with _ => _ end) _ => destruct x eqn:?
    | |- runs G (append_assembled_bytes _) _ => apply runs_emit
    | |- runs G (append_raw _) _ => apply runs_raw
    | |- runs G _ _ => apply runs_reader; solve [rd]
    | |- runs G (modify _) _ => apply runs_modify; apply (cl_same G CL); reflexivity
    end.
  Ltac walk := repeat walk1.

  Lemma runs_change_org : forall start stop s, keeps (change_org p start stop) s.
  Proof.
    intros. unfold change_org. walk1; [walk|]. walk1.
    apply runs_bind; [apply runs_modify; apply (cl_same G CL); reflexivity|]. intros [] s' _. walk.
  Qed.

  Lemma ref_emitted : forall s d b s', ld_offset d = 0 ->
    append_assembled_bytes b (set_labels_addresses s
       (dset Z.eqb (labels_addresses s) (zlen (assembled s) + ld_offset d) d)) = (s', Ok tt) ->
    emitted (referring s [d]) b s'.
  Proof. intros s d b s' O E. injection E as <-. reflexivity. Qed.

  Lemma runs_data_token : forall size enc pk t s, 1 <= size ->
    (forall v b, pk v = Ok b -> size <= zlen b) -> keeps (data_token p size enc pk t) s.
  Proof.
    intros size enc pk t s P K. unfold data_token. apply runs_read; [rd|]. intros [] _.
    - walk.
    - intros s' a E. unfold bind in E at 1. rewrite poil_eq in E. cbn [plain_ref ld_label ld_bits_size ld_relative] in E.
      change (false || negb (0 =? 0)) with false in E.
      destruct (parse_integer p (labels s) t (8 * size) false) as [[v|]|e]; [| |discriminate].
      + unfold bind, lift in E. destruct (pk v) as [b|]; [|discriminate]. revert E.
        match goal with |- ?x = _ -> _ => change (append_assembled_bytes b s = (s', Ok a) -> G s s') end.
        apply runs_emit.
      + unfold bind, lift in E. destruct (pk 0) as [b|] eqn:B; [|discriminate]. destruct a.
        injection E as E. apply (cl_new G CL s [plain_ref t size (8 * size)] [size] b).
        * constructor; [|constructor]. constructor. reflexivity.
        * intros k d [<-|[]]. unfold ref_ok, plain_ref. cbn [snd ld_bits_size ld_alignment ld_bits ld_hook].
          split; [lia|]. split; [lia|]. split; [discriminate|auto].
        * constructor; [|constructor]. cbn [plain_ref ld_offset]. apply K in B. lia.
        * repeat constructor.
        * rewrite <- E. reflexivity.
  Qed.

  Lemma runs_to_ascii_token : forall size width u16 t s, (1 <= width)%nat -> 1 <= size ->
    keeps (to_ascii_token p size width u16 t) s.
  Proof.
    intros size width u16 t s P SZ. unfold to_ascii_token. walk.
    intros s' [] E. injection E as E.
    apply (cl_new G CL s [LabelData t size (8 * size) 0 0 1 None None (Some (to_str_hook width))] [Z.of_nat width]
             (repeat 0 width)).
    - constructor; [|constructor]. apply t_text. reflexivity.
    - intros k d [<-|[]]. unfold ref_ok. cbn [snd ld_bits_size ld_alignment ld_bits ld_hook].
      split; [lia|]. split; [lia|]. split; [discriminate|eauto].
    - constructor; [|constructor]. cbn [ld_offset]. unfold zlen. rewrite repeat_length. lia.
    - repeat constructor.
    - rewrite <- E. reflexivity.
  Qed.

  Lemma pack_length : forall be f mask v b, pack_u be f mask [v] = Ok b -> zlen b = Z.of_nat (sf_size f).
  Proof. intros. apply struct_pack_length in H. rewrite H. cbn. lia. Qed.

  Lemma runs_close : forall s, G s (close_section s).
  Proof. intros s. apply (cl_same G CL); rewrite close_section_eq; reflexivity. Qed.

  Lemma runs_directive : forall asm d tokens s,
    (forall f, d = D_custom f -> keeps (f tokens) s) ->
    (d = D_include -> forall code s, keeps (asm code) s) -> keeps (run_directive c asm d tokens) s.
  Proof.
    intros asm d tokens s CU INC. destruct d; cbn [run_directive]; fold p.
    - unfold macro_start. walk.
    - unfold macro_end. walk.
    - unfold directive_org. walk1; [walk|]. walk1. walk1. apply runs_read.
      { destruct (len_in tokens [3]%nat); [|rd]. apply reader_bind; [rd|]. intros; rd. }
      intros. apply runs_change_org.
    - unfold directive_include. walk. apply INC; auto.
    - unfold directive_incbin. walk.
    - unfold directive_inccsv. walk.
    - unfold directive_inccsv. walk.
    - unfold directive_incjson. walk.
    - unfold directive_define. walk.
    - apply runs_iter. intros. apply runs_data_token; [lia|]. intros v b HB. eapply pack_length in HB. rewrite HB. cbn. lia.
    - apply runs_iter. intros. apply runs_data_token; [lia|]. intros v b HB.
      destruct (big_endian p); eapply pack_length in HB; rewrite HB; cbn; lia.
    - apply runs_iter. intros. apply runs_data_token; [lia|]. intros v b HB.
      destruct (big_endian p); eapply pack_length in HB; rewrite HB; cbn; lia.
    - apply runs_iter. intros. apply runs_to_ascii_token; lia.
    - apply runs_iter. intros. apply runs_to_ascii_token; lia.
    - apply runs_bind; [apply runs_iter; intros; apply runs_to_ascii_token; lia|]. intros. walk.
    - apply runs_bind; [apply runs_iter; intros; apply runs_to_ascii_token; lia|]. intros. walk.
    - unfold directive_fill. walk.
    - unfold directive_ram. walk.
    - unfold directive_log. destruct tokens as [|? [|t1 ?]]; walk.
    - unfold directive_align. walk.
    - unfold directive_repeat. walk.
    - unfold directive_end_repeat. walk1. destruct (repeat_ s) as [[size index]|]; [|walk].
      apply runs_bind; [walk|]. intros. apply runs_times. intros. walk.
    - unfold directive_goto, directive_goto_upto. walk.
    - unfold directive_upto, directive_goto_upto. walk.
    - unfold directive_section. walk1; [walk|]. do 3 walk1. walk1; [walk|]. walk1. walk1; [walk|].
      assert (SEC : forall nm pm s1,
        keeps (modify close_section ;; modify (fun s => set_sections s
          (dset str_eqb (sections s) nm (MkSection (pc s) (zlen (assembled s)) pm None None)) (Some nm))) s1).
      { intros. apply runs_bind; [apply runs_modify, runs_close|]. intros. walk. }
      destruct (len_in tokens [4]%nat).
      + apply runs_bind; [|intros; apply SEC]. walk1. walk1. apply runs_change_org.
      + apply runs_read; [rd|]. intros. apply SEC.
    - unfold directive_export. walk.
    - apply CU. reflexivity.
  Qed.

  Lemma runs_label : forall tokens s, keeps (label_assemble c tokens) s.
  Proof.
    intros tokens s. unfold label_assemble. walk1. destruct (macro_recording s); [walk|].
    walk1. walk1; [walk|]. walk1; [walk|]. walk1. destruct a0; [walk|].
    apply runs_modify. rewrite dset_new by assumption. eapply (cl_label G CL); reflexivity.
  Qed.

  Context (NE : handlers neat c)
    (CUST : forall k f tokens s, dget str_eqb (c_directives c) k = Some (D_custom f) -> keeps (f tokens) s).

  Lemma runs_opcode : forall key tokens s, keeps (opcode_assemble c key tokens) s.
  Proof.
    intros key tokens s. unfold opcode_assemble.
    destruct (dget str_eqb (c_instructions c) key) as [[b|f]|] eqn:E; [walk| |walk].
    intros s' [] H. unfold bind, call_handler in H.
    destruct (f tokens s) as [s1 [[b|]|[e|e]]] eqn:R; try discriminate. injection H as H.
    destruct (NE _ _ E tokens s s1 b R) as (ds & -> & S & P).
    eapply runs_placed; eauto. symmetry. exact H.
  Qed.
  Lemma runs_store : forall pl tokens s, keeps (store_tokens pl tokens) s.
  Proof.
    intros [|key i] tokens s; unfold store_tokens; [walk|]. apply runs_modify.
    destruct (dget str_eqb (macros s) key) as [m|]; [|apply (cl_refl G CL)].
    destruct (nth_error (m_body m) i); [|apply (cl_refl G CL)]. apply (cl_same G CL); reflexivity.
  Qed.
  Lemma runs_macro_loop : forall run key params args n i s,
    (forall pl tokens s, keeps (run pl tokens) s) -> keeps (macro_loop run key params args n i) s.
  Proof.
    induction n; intros i s R; cbn [macro_loop]; [walk|]. walk1.
    destruct (dget str_eqb (macros s) key) as [m|]; [|walk].
    destruct (nth_error (m_body m) i); [|walk]. cbv zeta. walk1.
    apply runs_bind; [apply runs_store|]. intros.
    apply runs_bind; [apply R|]. intros.
    apply runs_bind; [apply runs_store|]. intros. auto.
  Qed.
  Lemma runs_instruction : forall fuel line pl tokens s, keeps (instruction_assemble c fuel line pl tokens) s.
  Proof.
    assert (REC : forall line tokens key s, keeps (modify (fun s =>
          match dget str_eqb (macros s) key with
          | Some m => set_macros s (dset str_eqb (macros s) key
              (MkMacro (m_args m) (m_body m ++ [Stmt KInstruction tokens line])))
          | None => s
          end)) s).
    { intros. apply runs_modify. destruct (dget str_eqb (macros s) key); [|apply (cl_refl G CL)]. apply (cl_same G CL); reflexivity. }
    induction fuel; intros line pl tokens s; cbn [instruction_assemble]; walk1;
      destruct (macro_recording s); auto; cbv zeta;
      (apply runs_bind; [apply runs_store|]); intros ? ? _; walk1;
      destruct (dget str_eqb (macros s) _); try apply runs_opcode; [walk|].
    apply runs_macro_loop. auto.
  Qed.
  Lemma runs_statement : forall fuel asm x s, (forall code s, keeps (asm code) s) ->
    keeps (statement_assemble c fuel asm x) s.
  Proof.
    intros fuel asm x s A. unfold statement_assemble.
    destruct (s_kind x); [apply runs_instruction|apply runs_label|].
    unfold directive_assemble. walk1. cbv zeta. walk1. fold p.
    destruct (dget str_eqb (c_directives c) _) as [d|] eqn:E; [|walk].
    apply runs_directive; [|intros _; exact A]. intros f ->. eapply CUST; eauto.
  Qed.
  Lemma runs_tail : forall s, keeps (assemble_tail c) s.
  Proof.
    intros s. unfold assemble_tail. walk1. fold p. apply runs_bind; [walk|].
    intros. apply runs_modify, runs_close.
  Qed.
  Lemma runs_assemble : forall fuel text s, keeps (assemble c fuel text) s.
  Proof.
    induction fuel; intros text s; cbn [assemble]; walk1;
      (apply runs_bind; [|intros; apply runs_tail]); apply runs_iter; intros;
      apply runs_statement; auto. intros. walk.
  Qed.
  Lemma runs_exec : forall fuel ss s, keeps (exec c fuel ss) s.
  Proof.
    intros fuel ss s. unfold exec. apply runs_iter. intros. apply runs_statement.
    destruct fuel; intros; [walk|apply runs_assemble].
  Qed.
End Keeps.
End Runs.

(** ** The relation good *)

Lemma good_closed : closed good.
Proof.
  constructor.
  - exact good_refl.
  - exact good_trans.
  - intros. apply good_same; auto.
  - intros. eapply good_append; eauto.
  - exact good_new.
  - intros s s' k l A R L _ T. unfold tidy in *. rewrite A, R, L. split; [exact T|]. split; [apply extends_refl|].
    split; [apply later_refl; exact R|]. split; [eexists; reflexivity|auto].
Qed.
Definition keeps {A} (m : M A) (s : st) : Prop := runs good m s.
Definition good_placed := runs_placed good good_closed.
Definition keeps_assemble := fun c => runs_assemble good good_closed c.
Definition keeps_exec := fun c => runs_exec good good_closed c.
Definition keeps_tail := fun c => runs_tail good good_closed c.
