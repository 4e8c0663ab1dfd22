(** Computations that do not depend on unused definitions and macros. *)
From Coq Require Import Lia.
From Verif Require Import Py PyFacts Utils Tokenizer State Assembler SpecUtils SpecSubst SubstFacts SpecExec Instr SpecSpare.
Local Open Scope Z_scope.

(** ** Words *)

Lemma split_token : forall t, exists ks, chunks_of t ks.
Proof. intros t. destruct (subst_chars_chunks [] t [] (Forall_nil _)) as (ks & K & _). exists ks. exact K. Qed.

Section Words.
  Context (X : str -> Prop) (XP : proper X).

  Lemma lacks_not : forall t, lacks X t -> ~ X t.
  Proof.
    intros t L H. destruct (XP t H) as [NE F]. apply (L [Name t] t); [|left; reflexivity|exact H].
    split; [repeat constructor; auto|]. split; [exact I|]. cbn [flat_map chunk_text]. symmetry. apply app_nil_r.
  Qed.
  Lemma lacks_chunks : forall t ks, chunks_of t ks -> (forall w, In (Name w) ks -> ~ X w) -> lacks X t.
  Proof. intros t ks C H ks' w C'. rewrite (chunks_unique _ _ _ C' C). apply H. Qed.

  Lemma maximal_app : forall k1 k2, maximal k1 -> maximal k2 -> (forall w t, k2 <> Name w :: t) -> maximal (k1 ++ k2).
  Proof.
    induction k1 as [|a k1 IH]; intros k2 M1 M2 H; [exact M2|].
    pose proof (IH k2 (maximal_tl _ _ M1) M2 H) as R. destruct k1 as [|b k1].
    - cbn [app] in *. destruct a as [w|ch]; [|exact M2]. destruct k2 as [|[w'|ch] k2]; [exact I|exfalso; eapply H; reflexivity|exact M2].
    - cbn [app] in *. destruct a as [w|ch]; [|exact R]. destruct b; [destruct M1|exact R].
  Qed.

  Lemma subst_lacks : forall d t u, substituted d t u -> lacks X t ->
    (forall k v, ~ X k -> value_of d k = Some v -> lacks X v) -> lacks X u.
  Proof.
    intros d t u S L V. destruct S as [v H|ks H C]; [eapply V; [|exact H]; apply lacks_not; exact L|].
    assert (NX : forall w, In (Name w) ks -> ~ X w) by (intros w I; exact (L ks w C I)).
    destruct C as (OK & MX & _). clear t L H.
    assert (G : exists ks', chunks_of (flat_map (chunk_subst d) ks) ks' /\ (forall w, In (Name w) ks' -> ~ X w) /\
      ((forall w t, ks <> Name w :: t) -> forall w t, ks' <> Name w :: t)).
    { induction ks as [|a ks IH].
      - exists []. split; [repeat split; constructor|]. split; [intros w []|]. intros _ w t; discriminate.
      - inversion OK; subst. destruct (IH H2 (maximal_tl _ _ MX) (fun w I => NX w (or_intror I))) as (ks' & (O & M & T) & N & HD).
        destruct a as [w|ch].
        + assert (B : forall w0 t, ks <> Name w0 :: t) by (intros w0 t ->; exact MX). pose proof (HD B) as HD'.
          assert (W : exists kw, chunks_of (chunk_subst d (Name w)) kw /\ forall z, In (Name z) kw -> ~ X z).
          { cbn [chunk_subst]. destruct (value_of d w) as [v|] eqn:E.
            - destruct (split_token v) as [kw K]. exists kw. split; [exact K|]. intros z I.
              apply (V w v (NX w (or_introl eq_refl)) E kw z K I).
            - exists [Name w]. split; [|intros z [I|[]]; injection I as <-; apply NX; left; reflexivity].
              split; [repeat constructor; apply H1|]. split; [exact I|]. cbn [flat_map chunk_text]. symmetry. apply app_nil_r. }
          destruct W as (kw & (O2 & M2 & T2) & N2). exists (kw ++ ks'). split; [|split].
          * split; [apply Forall_app; split; assumption|]. split; [apply maximal_app; assumption|].
            cbn [flat_map]. rewrite flat_map_app. congruence.
          * intros z I. apply in_app_iff in I. destruct I; auto.
          * intros Q. exfalso. eapply Q. reflexivity.
        + exists (Other ch :: ks'). split; [|split].
          * split; [constructor; assumption|]. split; [exact M|]. cbn [flat_map chunk_subst chunk_text]. rewrite T. reflexivity.
          * intros z [I|I]; [discriminate|auto].
          * intros _ z q. discriminate. }
    destruct G as (ks' & C & N & _). eapply lacks_chunks; eauto.
  Qed.
  Lemma subst_same : forall d D t, lacks X t -> (forall k, ~ X k -> value_of D k = value_of d k) -> subst_token D t = subst_token d t.
  Proof.
    intros d D t L E. apply (substituted_unique D t); [apply subst_token_substituted|].
    destruct (subst_token_substituted d t) as [v H|ks H C].
    - apply subst_whole. rewrite E; [exact H|]. apply lacks_not. exact L.
    - replace (flat_map (chunk_subst d) ks) with (flat_map (chunk_subst D) ks).
      + apply subst_parts; [|exact C]. rewrite E; [exact H|]. apply lacks_not. exact L.
      + assert (NX : forall w, In (Name w) ks -> ~ X w) by (intros w I; exact (L ks w C I)). clear C. induction ks as [|a ks IH]; [reflexivity|].
        cbn [flat_map]. rewrite IH by (intros w I; apply NX; right; exact I). f_equal. destruct a as [w|ch]; [|reflexivity].
        cbn [chunk_subst]. rewrite E; [reflexivity|]. apply NX. left. reflexivity.
  Qed.
  Lemma tokens_lack : forall d l n, Forall (lacks X) l -> (forall k v, ~ X k -> value_of d k = Some v -> lacks X v) ->
    Forall (lacks X) (substitute_with_dict l d n).
  Proof.
    intros d l n F V. unfold substitute_with_dict. rewrite <- (firstn_skipn n l) in F. apply Forall_app in F. destruct F as [F1 F2].
    apply Forall_app. split; [exact F1|]. revert F2. generalize (skipn n l). induction l0 as [|t r IH]; intros F; [constructor|].
    inversion F; subst. cbn [map]. constructor; [|auto]. eapply subst_lacks; [apply subst_token_substituted|assumption|exact V].
  Qed.
  Lemma tokens_same : forall d D l n, Forall (lacks X) l -> (forall k, ~ X k -> value_of D k = value_of d k) ->
    substitute_with_dict l D n = substitute_with_dict l d n.
  Proof.
    intros d D l n F E. unfold substitute_with_dict. f_equal. rewrite <- (firstn_skipn n l) in F. apply Forall_app in F. destruct F as [_ F2].
    revert F2. generalize (skipn n l). induction l0 as [|t r IH]; intros F; [reflexivity|]. inversion F; subst. cbn [map]. f_equal; [|auto].
    apply subst_same; assumption.
  Qed.
End Words.

(** ** Computations that do not look at definitions and macros *)

Definition bat {A} (s : st) (D : list (str * str)) (N : list (str * macro)) (m1 m2 : M A) : Prop :=
  m2 (put s D N) = (put (fst (m1 s)) D N, snd (m1 s)) /\
  defines (fst (m1 s)) = defines s /\ macros (fst (m1 s)) = macros s /\ macro_recording (fst (m1 s)) = macro_recording s.
Lemma bat_ret : forall A (a : A) s D N, bat s D N (ret a) (ret a).
Proof. intros. repeat split. Qed.
Lemma bat_raise : forall A e s D N, bat (A := A) s D N (raise e) (raise e).
Proof. intros. repeat split. Qed.
Lemma bat_lift : forall A (r : res A) s D N, bat s D N (lift r) (lift r).
Proof. intros. repeat split. Qed.
Lemma bat_bind : forall A B (m1 m2 : M A) (k1 k2 : A -> M B) s D N, bat s D N m1 m2 ->
  (forall t a, bat t D N (k1 a) (k2 a)) -> bat s D N (bind m1 k1) (bind m2 k2).
Proof.
  intros A B m1 m2 k1 k2 s D N (E & E1 & E2 & E3) H. unfold bat, bind. rewrite E. destruct (m1 s) as [t [a|e]]; cbn [fst snd] in *.
  - destruct (H t a) as (F & F1 & F2 & F3). rewrite F1, F2, F3. auto.
  - auto.
Qed.
Lemma bat_get : forall B (k1 k2 : st -> M B) s D N, bat s D N (k1 s) (k2 (put s D N)) -> bat s D N (bind get k1) (bind get k2).
Proof. intros B k1 k2 s D N H. exact H. Qed.
Lemma bat_modify : forall f s D N, f (put s D N) = put (f s) D N -> defines (f s) = defines s -> macros (f s) = macros s ->
  macro_recording (f s) = macro_recording s -> bat s D N (modify f) (modify f).
Proof. intros f s D N H ? ? ?. unfold bat, modify. cbn [fst snd]. rewrite H. auto. Qed.
Lemma bat_iter : forall A (f : A -> M unit) l s D N, (forall a t, bat t D N (f a) (f a)) -> bat s D N (iter f l) (iter f l).
Proof. intros A f l s D N H. revert s. induction l as [|a l IH]; intros s; cbn [iter]; [apply bat_ret|]. apply bat_bind; auto. Qed.
Lemma bat_times : forall m n s D N, (forall t, bat t D N m m) -> bat s D N (times n m) (times n m).
Proof. intros m n s D N H. revert s. induction n as [|n IH]; intros s; cbn [times]; [apply bat_ret|]. apply bat_bind; auto. Qed.
Lemma bat_blind : forall A (m : M A), (forall s D N, bat s D N m m) <-> blind m.
Proof. intros A m. split; intros H s D N; exact (H s D N). Qed.
Lemma bat_parse : forall p t n sg s D N, bat s D N (m_parse_integer p t n sg) (m_parse_integer p t n sg).
Proof. intros. repeat split. Qed.
Lemma bat_absolute : forall p t s D N, bat s D N (m_label_absolute p t) (m_label_absolute p t).
Proof. intros. repeat split. Qed.
Lemma bat_ref : forall d s D N, bat s D N (add_label_translation d) (add_label_translation d).
Proof. intros. repeat split. Qed.
Lemma bat_append : forall b s D N, bat s D N (append_assembled_bytes b) (append_assembled_bytes b).
Proof. intros. repeat split. Qed.
Lemma bat_raw : forall b s D N, bat s D N (append_raw b) (append_raw b).
Proof. intros. repeat split. Qed.
Lemma bat_tok : forall l i s D N, bat s D N (tok_at l i) (tok_at l i).
Proof. intros. unfold tok_at. destruct (nth_error l i); repeat split. Qed.
Lemma bat_open : forall A (f : str -> option A) n s D N, bat s D N (open_file f n) (open_file f n).
Proof. intros. unfold open_file. destruct (f n); repeat split. Qed.

Ltac bstep :=
  cbv zeta;
  lazymatch goal with
  | |- bat _ _ _ (bind get _) _ => apply bat_get; cbn [put assembled labels current_org current_org_end org_counter labels_addresses macros
      macro_recording repeat_ log sections current_section exports defines cartridge_set x86_bits elf_header relocations set_macros set_defines]
  | |- bat _ _ _ (bind _ _) _ => apply bat_bind; [|intros ? ?]
  | |- bat _ _ _ (ret _) _ => apply bat_ret
  | |- bat _ _ _ (raise _) _ => apply bat_raise
  | |- bat _ _ _ (araise _) _ => apply bat_raise
  | |- bat _ _ _ (praise _) _ => apply bat_raise
  | |- bat _ _ _ (lift _) _ => apply bat_lift
  | |- bat _ _ _ (m_parse_integer _ _ _ _) _ => apply bat_parse
  | |- bat _ _ _ (m_label_absolute _ _) _ => apply bat_absolute
  | |- bat _ _ _ (add_label_translation _) _ => apply bat_ref
  | |- bat _ _ _ (append_assembled_bytes _) _ => apply bat_append
  | |- bat _ _ _ (append_raw _) _ => apply bat_raw
  | |- bat _ _ _ (tok_at _ _) _ => apply bat_tok
  | |- bat _ _ _ (open_file _ _) _ => apply bat_open
  | |- bat _ _ _ (modify _) _ => apply bat_modify; reflexivity
  | |- bat _ _ _ (iter _ _) _ => apply bat_iter; intros ? ?
  | |- bat _ _ _ (times _ _) _ => apply bat_times; intros ?
  | |- bat _ _ _ (match ?x with _ => _ end) _ => destruct x
  end.
Ltac bgo := repeat bstep.

Lemma bat_poil : forall p d b s D N, bat s D N (parse_integer_or_label p d b) (parse_integer_or_label p d b).
Proof. intros. unfold parse_integer_or_label. bgo. Qed.
Lemma bat_int_arg : forall p t n s D N, bat s D N (int_arg p t n) (int_arg p t n).
Proof. intros. unfold int_arg. bgo. Qed.
Lemma bat_fill_arg : forall p t s D N, bat s D N (fill_arg p t) (fill_arg p t).
Proof. intros. unfold fill_arg. bgo. apply bat_int_arg. Qed.
Lemma bat_change_org : forall p a b s D N, bat s D N (change_org p a b) (change_org p a b).
Proof. intros. unfold change_org. bgo. Qed.
Lemma bat_csv : forall p n pk cols blob s D N, bat s D N (csv_blob p n pk cols blob) (csv_blob p n pk cols blob).
Proof. intros p n pk cols. induction cols as [|x cols IH]; intros blob s D N; cbn [csv_blob]; bgo. apply IH. Qed.
Lemma bat_json : forall p items blob s D N, bat s D N (json_blob p items blob) (json_blob p items blob).
Proof. intros p items. induction items as [|x items IH]; intros blob s D N; cbn [json_blob]; bgo; apply IH. Qed.
Lemma bat_bytes_or_ascii : forall p l blob s D N, bat s D N (parse_bytes_or_ascii p l blob) (parse_bytes_or_ascii p l blob).
Proof. intros p l. induction l as [|x l IH]; intros blob s D N; cbn [parse_bytes_or_ascii]; bgo; apply IH. Qed.
Lemma bat_close : forall s D N, bat s D N (modify close_section) (modify close_section).
Proof.
  intros s D N. apply bat_modify; unfold close_section, put; cbn [current_section sections set_macros set_defines];
    destruct (current_section s) as [[|c n]|]; try reflexivity; destruct (dget str_eqb (sections s) (c :: n)); reflexivity.
Qed.
Ltac bgoes := repeat first [bstep | apply bat_poil | apply bat_int_arg | apply bat_fill_arg | apply bat_change_org
  | apply bat_csv | apply bat_json | apply bat_bytes_or_ascii | apply bat_close].

(** The directives that are about neither macros, definitions nor included programs. *)
Definition plain_directive (d : directive) : Prop :=
  match d with D_macro | D_endmacro | D_include | D_define => False | _ => True end.
Lemma bat_run : forall c asm asm' d t s D N, plain_directive d -> (forall f, d = D_custom f -> blind (f t)) ->
  bat s D N (run_directive c asm d t) (run_directive c asm' d t).
Proof.
  intros c asm asm' d t s D N PD CU. destruct d; cbn [run_directive plain_directive] in *; try contradiction.
  all: try (apply bat_blind; apply CU; reflexivity).
  all: unfold directive_org, directive_incbin, directive_inccsv, directive_incjson,
    directive_db, directive_dw, directive_dd, directive_db_to_ascii, directive_dw_to_ascii, directive_db_to_asciiz,
    directive_dw_to_asciiz, directive_fill, directive_ram, directive_log, directive_align, directive_repeat,
    directive_end_repeat, directive_goto, directive_upto, directive_goto_upto, directive_section, directive_export,
    directive_db_to_ascii, directive_dw_to_ascii, data_token, to_ascii_token.
  all: bgoes.
Qed.
Lemma bat_handler : forall f t s D N, blind (f t) -> bat s D N (call_handler f t) (call_handler f t).
Proof.
  intros f t s D N H. destruct (H s D N) as (E & K). unfold bat, call_handler. rewrite E.
  destruct (f t s) as [u [[b|]|[x|x]]]; cbn [fst snd] in *; auto.
Qed.
Lemma bat_opcode : forall c, blind_plugins c -> forall key t s D N, bat s D N (opcode_assemble c key t) (opcode_assemble c key t).
Proof.
  intros c (HI & _) key t s D N. unfold opcode_assemble. destruct (dget str_eqb (c_instructions c) key) as [[b|f]|] eqn:E; [bgo|bgo|bgo].
  apply bat_handler. exact (HI _ _ _ E).
Qed.
Lemma bat_label : forall c t s D N, bat s D N (label_assemble c t) (label_assemble c t).
Proof. intros. unfold label_assemble. bgo. Qed.
Lemma bat_tail : forall c s D N, bat s D N (assemble_tail c) (assemble_tail c).
Proof. intros. unfold assemble_tail. bgoes. Qed.

(** ** Linking *)

Lemma bat_patch : forall be a size v n i s D N, bat s D N (patch_loop be a size v i n) (patch_loop be a size v i n).
Proof. intros be a size v n. induction n as [|n IH]; intros i s D N; cbn [patch_loop]; bgo. apply IH. Qed.
Lemma bat_hook : forall h a v s D N, bat s D N (apply_hook h a v) (apply_hook h a v).
Proof.
  intros h a v s D N. unfold bat, apply_hook, put. cbn [assembled set_macros set_defines].
  destruct (h a v (assembled s)) as [out [e|]]; repeat split.
Qed.
Lemma bat_seen_relative : forall p t st0 s D N, bat s D N (fun s => (s, label_relative p (labels s) t st0)) (fun s => (s, label_relative p (labels s) t st0)).
Proof. intros. repeat split. Qed.
Lemma bat_resolve : forall p a d s D N, bat s D N (resolve_one p dummy_linker a d) (resolve_one p dummy_linker a d).
Proof.
  intros p a d s D N. unfold resolve_one, dummy_linker, lk_resolve.
  repeat first [apply bat_hook | apply bat_patch | apply bat_seen_relative | bstep].
Qed.
Lemma bat_link : forall c, blind_plugins c -> forall s D N, bat s D N (link c dummy_linker) (link c dummy_linker).
Proof.
  intros c (_ & _ & HP) s D N. unfold link.
  assert (I : forall l, incl l (c_pre_link c ++ c_post_link c) -> forall s, bat s D N (iter (fun m => m) l) (iter (fun m => m) l)).
  { induction l as [|m l IH]; intros H u; cbn [iter]; [apply bat_ret|].
    apply bat_bind; [apply bat_blind; apply HP; apply H; left; reflexivity|]. intros t [].
    apply IH. intros x IX. apply H. right. exact IX. }
  apply bat_bind; [apply I; intros x IX; apply in_or_app; left; exact IX|]. intros s1 [].
  apply bat_bind; [unfold resolve_labels; apply bat_get; apply bat_iter; intros [a d] t; apply bat_resolve|].
  intros s2 []. apply bat_bind; [apply I; intros x IX; apply in_or_app; right; exact IX|]. intros s3 [].
  unfold dummy_linker, lk_link. bgo.
Qed.

(** ** Statements *)

Section Run.
  Context (X : str -> Prop) (XP : proper X) (c : cfg) (HC : blind_plugins c) (HF : files_lack X c).

  Definition dat {A} (s : st) (D : list (str * str)) (N : list (str * macro)) (m1 m2 : M A) : Prop :=
    unused X c s -> else_same X c s D N -> unused X c (fst (m1 s)) /\
    exists D' N', else_same X c (fst (m1 s)) D' N' /\ m2 (put s D N) = (put (fst (m1 s)) D' N', snd (m1 s)) /\
      (D = defines s -> D' = defines (fst (m1 s))) /\ (N = macros s -> N' = macros (fst (m1 s))).
  Lemma dat_indifferent : forall A (m : M A), (forall s D N, dat s D N m m) <-> indifferent X c m.
  Proof. intros A m. split; intros H s D N; exact (H s D N). Qed.
  Lemma dat_bat : forall A (m1 m2 : M A) s D N, bat s D N m1 m2 -> dat s D N m1 m2.
  Proof.
    intros A m1 m2 s D N (E & E1 & E2 & E3) U S. split.
    - unfold unused in *. rewrite E1, E2, E3. exact U.
    - exists D, N. rewrite E1, E2. split; [|auto]. unfold else_same in *. rewrite E1, E2. exact S.
  Qed.
  Lemma dat_bind : forall A B (m1 m2 : M A) (k1 k2 : A -> M B) s D N, dat s D N m1 m2 ->
    (forall t D N a, snd (m1 s) = Ok a -> dat t D N (k1 a) (k2 a)) -> dat s D N (bind m1 k1) (bind m2 k2).
  Proof.
    intros A B m1 m2 k1 k2 s D N H K U S. destruct (H U S) as (U1 & D1 & N1 & S1 & E & ED & EN). unfold bind. rewrite E.
    destruct (m1 s) as [t [a|e]]; cbn [fst snd] in *.
    - destruct (K t D1 N1 a eq_refl U1 S1) as (U2 & D2 & N2 & S2 & E2 & ED2 & EN2). split; [exact U2|]. exists D2, N2. auto 6.
    - split; [exact U1|]. exists D1, N1. auto.
  Qed.
  Lemma dat_get : forall B (k1 k2 : st -> M B) s D N, dat s D N (k1 s) (k2 (put s D N)) -> dat s D N (bind get k1) (bind get k2).
  Proof. intros B k1 k2 s D N H. exact H. Qed.
  Lemma dat_iter : forall A (f g : A -> M unit) l s D N, (forall a t D N, In a l -> dat t D N (f a) (g a)) -> dat s D N (iter f l) (iter g l).
  Proof.
    intros A f g l. induction l as [|a l IH]; intros s D N H; cbn [iter]; [apply dat_bat, bat_ret|].
    apply dat_bind; [apply H; left; reflexivity|]. intros. apply IH. intros. apply H. right. assumption.
  Qed.

  Lemma values_lack : forall s k v, unused X c s -> ~ X k -> value_of (defines s) k = Some v -> lacks X v.
  Proof. intros s k v (V & _) NX E. rewrite value_of_dget in E. eauto. Qed.
  Lemma values_same : forall s D N k, else_same X c s D N -> ~ X k -> value_of D k = value_of (defines s) k.
  Proof. intros s D N k (V & _) NX. rewrite !value_of_dget. auto. Qed.

  (** Replacing a macro that is not one of the spare ones. *)
  Lemma dat_macro : forall s D N k m, ~ X k -> (forall x, In x (m_body m) -> stmt_lacks X x) -> unused X c s -> else_same X c s D N ->
    unused X c (set_macros s (dset str_eqb (macros s) (op_key c k) m)) /\
    else_same X c (set_macros s (dset str_eqb (macros s) (op_key c k) m)) D (dset str_eqb N (op_key c k) m).
  Proof.
    intros s D N k m NX B (V & MB & R) (S1 & S2). split; split; cbn [defines macros macro_recording set_macros]; auto.
    - split; [|exact R]. intros k' m' x NX'. destruct (str_eqb (op_key c k') (op_key c k)) eqn:E.
      + apply str_eqb_eq in E. rewrite E, (dget_dset_same str_eqb str_eqb_eq). intros Q. injection Q as <-. apply B.
      + rewrite (dget_dset_other str_eqb str_eqb_eq); [eauto|]. intros Q. rewrite Q, str_eqb_refl in E. discriminate.
    - intros k' NX'. destruct (str_eqb (op_key c k') (op_key c k)) eqn:E.
      + apply str_eqb_eq in E. rewrite E, !(dget_dset_same str_eqb str_eqb_eq). reflexivity.
      + assert (Q : op_key c k' <> op_key c k) by (intros Q; rewrite Q, str_eqb_refl in E; discriminate).
        rewrite !(dget_dset_other str_eqb str_eqb_eq) by exact Q. auto.
  Qed.

  (** Where a macro is changed in place it is not a spare one. *)
  Definition place_ok (pl : place) : Prop := match pl with Fresh => True | InMacro key _ => exists k, ~ X k /\ key = op_key c k end.
  Lemma dat_store : forall pl t s D N, place_ok pl -> Forall (lacks X) t -> dat s D N (store_tokens pl t) (store_tokens pl t).
  Proof.
    intros [|key i] t s D N P F; [apply dat_bat, bat_ret|]. destruct P as (k & NX & ->). intros U S.
    unfold store_tokens, modify. cbn [fst snd]. pose proof (proj2 S k NX) as E. unfold put. cbn [macros set_macros set_defines]. rewrite E.
    destruct (dget str_eqb (macros s) (op_key c k)) as [m|] eqn:DM; [|split; [exact U|]; exists D, N; repeat split; auto; apply S].
    destruct (nth_error (m_body m) i) as [x|] eqn:NE; [|split; [exact U|]; exists D, N; repeat split; auto; apply S].
    destruct (dat_macro s D N k (MkMacro (m_args m) (replace_nth i (Stmt (s_kind x) t (s_line x)) (m_body m))) NX) as [U' S']; auto.
    - cbn [m_body]. destruct U as (_ & MB & _). intros y IY.
      assert (R : forall (l : list stmt) i z y, In y (replace_nth i z l) -> y = z \/ In y l).
      { clear. induction l as [|a l IH]; intros [|i] z y H; cbn in *; auto; destruct H as [<-|H]; auto. destruct (IH _ _ _ H); auto. }
      destruct (R _ _ _ _ IY) as [->|IY']; [exact F|eauto].
    - split; [exact U'|]. do 2 eexists. split; [exact S'|]. split; [reflexivity|]. cbn [defines macros set_macros set_macro_recording]. split; congruence.
  Qed.
  Lemma dict_lacks : forall params args d d', macro_dict params args d = Ok d' -> Forall (lacks X) args ->
    (forall k v, value_of d k = Some v -> lacks X v) -> forall k v, value_of d' k = Some v -> lacks X v.
  Proof.
    induction params as [|x params IH]; intros args d d' E F V; cbn [macro_dict] in E.
    - injection E as <-. exact V.
    - destruct args as [|a args]; [discriminate|]. inversion F; subst. eapply IH; [exact E|assumption|]. intros k v.
      rewrite value_of_dget. destruct (str_eqb k x) eqn:Q.
      + apply str_eqb_eq in Q. subst. rewrite (dget_dset_same str_eqb str_eqb_eq). intros Q. injection Q as <-. assumption.
      + rewrite (dget_dset_other str_eqb str_eqb_eq); [rewrite <- value_of_dget; apply V|]. intros ->. rewrite str_eqb_refl in Q. discriminate.
  Qed.
  Lemma dat_loop : forall run key params args, (forall pl t s D N, place_ok pl -> Forall (lacks X) t -> dat s D N (run pl t) (run pl t)) ->
    (exists k, ~ X k /\ key = op_key c k) -> Forall (lacks X) args -> forall n i s D N,
    dat s D N (macro_loop run key params args n i) (macro_loop run key params args n i).
  Proof.
    intros run key params args HR PK FA n. induction n as [|n IH]; intros i s D N; cbn [macro_loop]; [apply dat_bat, bat_ret|].
    apply dat_get. intros U S.
    assert (E : dget str_eqb (macros (put s D N)) key = dget str_eqb (macros s) key).
    { destruct PK as (k & NX & ->). exact (proj2 S k NX). }
    rewrite E. revert U S. destruct (dget str_eqb (macros s) key) as [m|] eqn:DM; [|apply dat_bat, bat_ret].
    destruct (nth_error (m_body m) i) as [x|] eqn:NE; [|apply dat_bat, bat_ret]. intros U S.
    assert (FX : Forall (lacks X) (s_tokens x)).
    { destruct PK as (k & NX & ->). apply (proj1 (proj2 U) k m x NX DM). eapply nth_error_In; eauto. }
    revert U S. cbv zeta. apply dat_bind; [apply dat_bat, bat_lift|]. intros t1 D1 N1 d ED. cbn [lift snd] in ED.
    assert (FT : Forall (lacks X) (substitute_with_dict (s_tokens x) d 0)).
    { apply tokens_lack; auto. intros k v _. apply (dict_lacks _ _ _ _ ED FA). intros ? ? Q. discriminate. }
    apply dat_bind; [apply dat_store; [exact PK|exact FT]|]. intros t2 D2 N2 _ _.
    apply dat_bind; [apply HR; [exact PK|exact FT]|]. intros t3 D3 N3 _ _.
    apply dat_bind; [apply dat_store; [exact PK|exact FX]|]. intros t4 D4 N4 _ _. apply IH.
  Qed.
  Lemma dat_instruction : forall fuel l pl t s D N, place_ok pl -> Forall (lacks X) t ->
    dat s D N (instruction_assemble c fuel l pl t) (instruction_assemble c fuel l pl t).
  Proof.
    induction fuel as [|f IH]; intros l pl t s D N P F; cbn [instruction_assemble]; apply dat_get; intros U S;
      change (macro_recording (put s D N)) with (macro_recording s); change (defines (put s D N)) with D; change (macros (put s D N)) with N.
    all: destruct (macro_recording s) as [key|] eqn:MR;
      [destruct (proj2 (proj2 U) key MR) as (k & NX & ->); unfold modify; cbn [fst snd];
       unfold put; cbn [macros set_macros set_defines]; rewrite (proj2 S k NX);
       (destruct (dget str_eqb (macros s) (op_key c k)) as [m|] eqn:DM; [|split; [exact U|]; exists D, N; repeat split; auto; apply S]);
       (destruct (dat_macro s D N k (MkMacro (m_args m) (m_body m ++ [Stmt KInstruction t l])) NX) as [U' S']; auto;
         [cbn [m_body]; intros y IY; apply in_app_iff in IY; destruct IY as [IY|[<-|[]]]; [exact (proj1 (proj2 U) k m y NX DM IY)|exact F]
         |split; [exact U'|]; do 2 eexists; split; [exact S'|]; split; [reflexivity|]; cbn [defines macros set_macros]; split; congruence])|].
    all: cbv zeta; rewrite (tokens_same X XP (defines s) D t 0 F (fun k NX => values_same s D N k S NX)).
    all: assert (FT : Forall (lacks X) (substitute_with_dict t (defines s) 0)) by
      (apply tokens_lack; auto; intros k v; apply values_lack; exact U).
    all: set (t' := substitute_with_dict t (defines s) 0) in *.
    all: assert (HD : forall t0 u, tok_at t' 0 u = (u, Ok t0) -> ~ X t0) by
      (intros t0 u Q; apply lacks_not; auto; unfold tok_at in Q; destruct t' as [|z r]; [discriminate|];
       injection Q as <-; inversion FT; assumption).
    all: assert (EM : forall t0 u, tok_at t' 0 u = (u, Ok t0) -> dget str_eqb N (op_key c t0) = dget str_eqb (macros s) (op_key c t0)) by
      (intros t0 u Q; exact (proj2 S t0 (HD t0 u Q))).
    all: revert U S; apply dat_bind; [apply dat_store; assumption|]; intros s1 D1 N1 _ _.
    all: assert (TT : tok_at t' 0 s1 = (s1, snd (tok_at t' 0 s1))) by (unfold tok_at; destruct (nth_error t' 0); reflexivity).
    all: apply dat_bind; [apply dat_bat, bat_tok|]; intros s2 D2 N2 t0 ET; rewrite ET in TT.
    all: fold (op_key c t0); rewrite (EM t0 s1 TT).
    all: destruct (dget str_eqb (macros s) (op_key c t0)) as [m|]; [|apply dat_bat, bat_opcode; exact HC].
    - apply dat_bat, bat_raise.
    - apply dat_loop; [exact (IH l)|exists t0; split; [exact (HD t0 s1 TT)|reflexivity]|].
      destruct t' as [|z r]; [constructor|]. inversion FT; assumption.
  Qed.

  Lemma dat_directive : forall asm t, (forall x s D N, text_lacks X x -> dat s D N (asm x) (asm x)) -> Forall (lacks X) t ->
    forall s D N, dat s D N (directive_assemble c asm t) (directive_assemble c asm t).
  Proof.
    intros asm t HA F s D N. unfold directive_assemble. apply dat_get. intros U S. cbv zeta.
    change (defines (put s D N)) with D.
    rewrite (tokens_same X XP (defines s) D t 1 F (fun k NX => values_same s D N k S NX)).
    assert (FT : Forall (lacks X) (substitute_with_dict t (defines s) 1)) by
      (apply tokens_lack; auto; intros k v; apply values_lack; exact U).
    set (t' := substitute_with_dict t (defines s) 1) in *. clearbody t'. revert U S.
    apply dat_bind; [apply dat_bat, bat_tok|]. intros s1 D1 N1 t0 _.
    destruct (dget str_eqb (c_directives c) _) as [d|] eqn:DD; [|apply dat_bat, bat_raise]. clear s D N. rename s1 into s, D1 into D, N1 into N.
    assert (NT : forall i x, nth_error t' i = Some x -> lacks X x).
    { intros i x Q. rewrite Forall_forall in FT. apply FT. eapply nth_error_In; eauto. }
    assert (LD : plain_directive d \/ d = D_macro \/ d = D_endmacro \/ d = D_include \/ d = D_define)
      by (destruct d; cbn [plain_directive]; auto).
    destruct LD as [P|[ -> |[ -> |[ -> | -> ]]]]; cbn [run_directive].
    - apply dat_bat, bat_run; [exact P|]. intros f ->. exact (proj1 (proj2 HC) _ _ _ DD).
    - intros U S. unfold macro_start, bind, get. change (macro_recording (put s D N)) with (macro_recording s).
      destruct (macro_recording s) as [key|] eqn:MR; [split; [exact U|]; exists D, N; repeat split; auto; apply S|].
      destruct t' as [|z [|name args]]; cbn [skipn]; try (split; [exact U|]; exists D, N; repeat split; auto; apply S).
      cbv zeta. fold (op_key c name). unfold modify. cbn [fst snd].
      assert (NX : ~ X name) by (apply lacks_not; auto; exact (NT 1%nat name eq_refl)).
      destruct (dat_macro s D N name (MkMacro args []) NX) as [(V & MB & R) S']; auto; [intros x []|].
      split.
      + split; [exact V|]. split; [exact MB|]. cbn [macro_recording set_macro_recording]. intros key Q. injection Q as <-. eauto.
      + do 2 eexists. split; [exact S'|]. split; [reflexivity|]. cbn [defines macros set_macros set_macro_recording]. split; congruence.
    - intros U S. unfold macro_end, bind, get. change (macro_recording (put s D N)) with (macro_recording s).
      destruct (macro_recording s) as [key|] eqn:MR; [|split; [exact U|]; exists D, N; repeat split; auto; apply S].
      unfold modify. cbn [fst snd]. split.
      + destruct U as (V & MB & _). split; [exact V|]. split; [exact MB|]. intros k Q. discriminate.
      + exists D, N. repeat split; auto; apply S.
    - unfold directive_include. destruct (negb (len_in t' [2]%nat)); [apply dat_bat, bat_raise|].
      apply dat_bind; [apply dat_bat, bat_tok|]. intros s1 D1 N1 t1 _.
      apply dat_bind; [apply dat_bat, bat_lift|]. intros s2 D2 N2 nm _.
      apply dat_bind; [apply dat_bat, bat_open|]. intros s3 D3 N3 code E. apply HA.
      unfold open_file in E. destruct (file_text (c_env c) nm) as [code'|] eqn:FE; [|discriminate]. injection E as <-.
      exact (HF nm code' FE).
    - unfold directive_define. destruct (negb (len_in t' [3]%nat)); [apply dat_bat, bat_raise|].
      apply dat_bind; [apply dat_bat, bat_tok|]. intros s1 D1 N1 k EK.
      apply dat_bind; [apply dat_bat, bat_tok|]. intros s2 D2 N2 v EV.
      assert (TK : forall i x u, snd (tok_at t' i u) = Ok x -> lacks X x).
      { intros i x u Q. unfold tok_at in Q. destruct (nth_error t' i) as [y|] eqn:NE; [|discriminate]. injection Q as <-. eauto. }
      pose proof (lacks_not X XP k (TK _ _ _ EK)) as NX. pose proof (TK _ _ _ EV) as LV.
      intros (V & MB & R) (S1 & S2). unfold modify. cbn [fst snd]. split.
      + split; [|split; [exact MB|exact R]]. cbn [defines set_defines]. intros k' v' NX'. destruct (str_eqb k' k) eqn:Q.
        * apply str_eqb_eq in Q. subst k'. rewrite (dget_dset_same str_eqb str_eqb_eq). intros Q. injection Q as <-. exact LV.
        * rewrite (dget_dset_other str_eqb str_eqb_eq); [apply V; exact NX'|]. intros ->. rewrite str_eqb_refl in Q. discriminate.
      + exists (dset str_eqb D2 k v), N2. split; [|split; [reflexivity|cbn [defines macros set_defines]; split; congruence]]. split; [|exact S2]. cbn [defines set_defines]. intros k' NX'.
        destruct (str_eqb k' k) eqn:Q.
        * apply str_eqb_eq in Q. subst k'. rewrite !(dget_dset_same str_eqb str_eqb_eq). reflexivity.
        * assert (NE : k' <> k) by (intros ->; rewrite str_eqb_refl in Q; discriminate).
          rewrite !(dget_dset_other str_eqb str_eqb_eq) by exact NE. auto.
  Qed.
  Lemma dat_statement : forall fuel asm x, (forall x s D N, text_lacks X x -> dat s D N (asm x) (asm x)) -> stmt_lacks X x ->
    forall s D N, dat s D N (statement_assemble c fuel asm x) (statement_assemble c fuel asm x).
  Proof.
    intros fuel asm x HA L s D N. unfold statement_assemble. destruct (s_kind x).
    all: first [apply dat_directive; assumption | apply dat_instruction; [exact I|exact L] | apply dat_bat, bat_label].
  Qed.
  Lemma dat_assemble : forall fuel text s D N, text_lacks X text -> dat s D N (assemble c fuel text) (assemble c fuel text).
  Proof.
    induction fuel as [|f IH]; intros text s D N L; cbn [assemble];
      (apply dat_bind; [apply dat_bat, bat_lift|]); intros s1 D1 N1 ss E;
      (apply dat_bind; [apply dat_iter; intros x t D2 N2 IX; apply dat_statement|
         intros s2 D2 N2 _ _; apply dat_bat, bat_tail]).
    - intros. apply dat_bat, bat_raise.
    - pose proof (L ss E) as A. rewrite Forall_forall in A. auto.
    - intros y s2 D3 N3 LY. apply IH. exact LY.
    - pose proof (L ss E) as A. rewrite Forall_forall in A. auto.
  Qed.
  Lemma dat_exec : forall fuel ss s D N, Forall (stmt_lacks X) ss -> dat s D N (exec c fuel ss) (exec c fuel ss).
  Proof.
    intros fuel ss s D N L. unfold exec. apply dat_iter. intros x t D1 N1 IX. apply dat_statement.
    - intros y u D2 N2 LY. destruct fuel; [apply dat_bat, bat_raise|apply dat_assemble; exact LY].
    - rewrite Forall_forall in L. auto.
  Qed.
  Lemma dat_link : forall s D N, dat s D N (link c dummy_linker) (link c dummy_linker).
  Proof. intros. apply dat_bat, bat_link. exact HC. Qed.
End Run.
