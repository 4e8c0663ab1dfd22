(** Directives, statements, assemble and link cannot tell agreeing states apart. *)
From Verif Require Import Py PyFacts Utils Tokenizer State Assembler SpecExec SpecTok TokFacts Events ExecFacts SpecSim SimFacts.
Local Open Scope Z_scope.

Lemma F2_length : forall A B (R : A -> B -> Prop) l1 l2, Forall2 R l1 l2 -> length l1 = length l2.
Proof. intros A B R l1 l2 H. induction H; cbn; auto. Qed.

Section Sim.
  Context (lg ln : bool).
  Notation agr := (agree lg ln).
  Notation rt := (rat lg ln).

  Lemma rat_iter : forall A (f1 f2 : A -> M unit) (l1 l2 : list A) (R : A -> A -> Prop),
    (forall a b s1 s2, R a b -> agr s1 s2 -> rt (f1 a) (f2 b) s1 s2) -> Forall2 R l1 l2 ->
    forall s1 s2, agr s1 s2 -> rt (iter f1 l1) (iter f2 l2) s1 s2.
  Proof.
    intros A f1 f2 l1 l2 R F H. induction H; intros s1 s2 AG; cbn [iter]; [rgo|].
    apply rat_bind; [apply F; auto|]. intros _ t1 t2 AT. apply IHForall2; auto.
  Qed.
  Lemma rat_iter1 : forall A (f : A -> M unit) l, (forall a s1 s2, agr s1 s2 -> rt (f a) (f a) s1 s2) ->
    forall s1 s2, agr s1 s2 -> rt (iter f l) (iter f l) s1 s2.
  Proof.
    intros A f l F. apply (rat_iter A f f l l eq); [intros; subst; auto|]. induction l; constructor; auto.
  Qed.
  Lemma rat_times : forall f n, (forall s1 s2, agr s1 s2 -> rt f f s1 s2) ->
    forall s1 s2, agr s1 s2 -> rt (times n f) (times n f) s1 s2.
  Proof.
    intros f n F. induction n; intros s1 s2 AG; cbn [times]; [rgo|].
    apply rat_bind; [auto|]. intros _ t1 t2 AT. auto.
  Qed.

  Lemma rat_poil : forall p d b s1 s2, agr s1 s2 -> rt (parse_integer_or_label p d b) (parse_integer_or_label p d b) s1 s2.
  Proof. intros. unfold parse_integer_or_label. cbv zeta. rgo. Qed.
  Lemma rat_int_arg : forall p t n s1 s2, agr s1 s2 -> rt (int_arg p t n) (int_arg p t n) s1 s2.
  Proof. intros. unfold int_arg. rgo. Qed.
  Lemma rat_fill_arg : forall p t s1 s2, agr s1 s2 -> rt (fill_arg p t) (fill_arg p t) s1 s2.
  Proof. intros. unfold fill_arg. rgo. apply rat_int_arg; auto. Qed.

  Ltac rint := repeat first [rstep
    | match goal with H : agr ?s1 ?s2 |- rt ?m _ ?s1 ?s2 =>
        lazymatch m with
        | int_arg _ _ _ => exact (rat_int_arg _ _ _ _ _ H)
        | fill_arg _ _ => exact (rat_fill_arg _ _ _ _ H)
        | parse_integer_or_label _ _ _ => exact (rat_poil _ _ _ _ _ H)
        end end].

  Lemma rat_org : forall p a b s1 s2, agr s1 s2 -> rt (change_org p a b) (change_org p a b) s1 s2.
  Proof.
    intros. unfold change_org. cbv zeta. rint. apply rat_bind.
    - apply rat_modify. apply agree_set_org. auto.
    - intros _ t1 t2 AT. rint.
  Qed.
  Lemma rat_macro_start : forall p t s1 s2, agr s1 s2 -> rt (macro_start p t) (macro_start p t) s1 s2.
  Proof.
    intros. unfold macro_start. cbv zeta. rint.
    apply rat_modify. apply agree_set_recording, agree_set_macros; auto.
    apply macro_set; cbn; auto. apply (agree_macros _ _ _ _ H).
  Qed.
  Lemma rat_macro_end : forall t s1 s2, agr s1 s2 -> rt (macro_end t) (macro_end t) s1 s2.
  Proof.
    intros. unfold macro_end. rint. apply rat_modify. apply agree_set_recording. auto.
  Qed.
  Lemma rat_data : forall p n enc pk t s1 s2, agr s1 s2 -> rt (data_token p n enc pk t) (data_token p n enc pk t) s1 s2.
  Proof. intros. unfold data_token. rint. Qed.
  Lemma rat_to_ascii : forall p n w u t s1 s2, agr s1 s2 -> rt (to_ascii_token p n w u t) (to_ascii_token p n w u t) s1 s2.
  Proof. intros. unfold to_ascii_token. rint. Qed.
  Lemma rat_csv : forall p n pk cols b s1 s2, agr s1 s2 -> rt (csv_blob p n pk cols b) (csv_blob p n pk cols b) s1 s2.
  Proof.
    induction cols; intros b s1 s2 H; cbn [csv_blob]; rint. apply IHcols; auto.
  Qed.
  Lemma rat_json : forall p items b s1 s2, agr s1 s2 -> rt (json_blob p items b) (json_blob p items b) s1 s2.
  Proof.
    induction items as [|i items IH]; intros b s1 s2 H; cbn [json_blob]; [rint|].
    apply rat_bind.
    - destruct i; rint.
    - intros v t1 t2 AT. rint. apply IH; auto.
  Qed.
  Lemma rat_parse_bytes : forall p l b s1 s2, agr s1 s2 -> rt (parse_bytes_or_ascii p l b) (parse_bytes_or_ascii p l b) s1 s2.
  Proof. induction l; intros b s1 s2 H; cbn [parse_bytes_or_ascii]; rint; apply IHl; auto. Qed.
  Lemma rat_open_section : forall name perms s1 s2, agr s1 s2 ->
    let m := (modify close_section ;;
      modify (fun s => set_sections s
        (dset str_eqb (sections s) name
           (MkSection (pc s) (zlen (assembled s)) perms None None)) (Some name))) in
    rt m m s1 s2.
  Proof.
    intros name perms s1 s2 H. cbv zeta. unfold rat, bind, modify. cbn [fst snd]. split; [|reflexivity].
    pose proof (agree_close _ _ _ _ H) as C. pose proof (close_eq _ _ _ _ H) as E.
    rewrite E. same C.
    destruct C as (E1 & E2 & E3 & E4 & E5 & E6 & E7 & E8 & E9 & E10 & E11 & E12 & E13 & E14 & E15 & E16 & E17 & E18).
    unfold agree. cbn [set_sections assembled labels current_org current_org_end org_counter labels_addresses
      macros macro_recording repeat_ log sections current_section exports defines cartridge_set x86_bits
      elf_header relocations].
    repeat (split; [assumption|]). split; [destruct ln; reflexivity|]. tauto.
  Qed.
  Lemma rat_section : forall p t s1 s2, agr s1 s2 -> rt (directive_section p t) (directive_section p t) s1 s2.
  Proof.
    intros. unfold directive_section.
rint.
    - apply rat_org; auto.
    - apply rat_open_section; auto.
  Qed.

  Lemma rat_directive : forall c (asm1 asm2 : str -> M unit) d t,
    (forall f, d = D_custom f -> oblivious lg ln (f t)) ->
    (forall code s1 s2, agr s1 s2 -> rt (asm1 code) (asm2 code) s1 s2) ->
    forall s1 s2, agr s1 s2 -> rt (run_directive c asm1 d t) (run_directive c asm2 d t) s1 s2.
  Proof.
    intros c asm1 asm2 d t CU AS s1 s2 H. destruct d; cbn [run_directive].
    - apply rat_macro_start; auto.
    - apply rat_macro_end; auto.
    - unfold directive_org. rint. apply rat_org; auto.
    - unfold directive_include. rint. apply AS; auto.
    - unfold directive_incbin. rint.
    - unfold directive_inccsv. rint. apply rat_csv; auto.
    - unfold directive_inccsv. rint. apply rat_csv; auto.
    - unfold directive_incjson. rint. apply rat_json; auto.
    - unfold directive_define. rint. apply rat_modify. same AG0. apply agree_set_defines; auto.
    - apply rat_iter1; auto. intros; apply rat_data; auto.
    - apply rat_iter1; auto. intros; apply rat_data; auto.
    - apply rat_iter1; auto. intros; apply rat_data; auto.
    - apply rat_iter1; auto. intros; apply rat_to_ascii; auto.
    - apply rat_iter1; auto. intros; apply rat_to_ascii; auto.
    - unfold directive_db_to_asciiz. rint. apply rat_iter1; auto. intros; apply rat_to_ascii; auto.
    - unfold directive_dw_to_asciiz. rint. apply rat_iter1; auto. intros; apply rat_to_ascii; auto.
    - unfold directive_fill. rint.
    - unfold directive_ram. rint. apply rat_modify. same AG0. apply agree_set_counter; auto.
    - unfold directive_log. rint; apply rat_modify; apply agree_set_log; auto.
    - unfold directive_align. cbv zeta. rint.
    - unfold directive_repeat. rint. apply rat_modify. same AG0. apply agree_set_repeat; auto.
    - unfold directive_end_repeat. cbv zeta. rint. apply rat_bind.
      + apply rat_modify. apply agree_set_repeat; auto.
      + intros _ t1 t2 AT. apply rat_times; auto. intros; apply rat_emit; auto.
    - unfold directive_goto, directive_goto_upto. rint.
    - unfold directive_upto, directive_goto_upto. rint.
    - apply rat_section; auto.
    - unfold directive_export. rint. apply rat_modify. same AG0. apply agree_set_exports; auto.
    - apply CU; auto.
  Qed.

  (** *** Statements *)
  Lemma rat_label_stmt : forall c t s1 s2, agr s1 s2 -> rt (label_assemble c t) (label_assemble c t) s1 s2.
  Proof.
    intros. unfold label_assemble. rint. apply rat_modify. same AG0. apply agree_set_labels; auto.
  Qed.
  Lemma rat_opcode : forall c key t, (forall f, dget str_eqb (c_instructions c) key = Some (OFun f) -> oblivious lg ln (f t)) ->
    forall s1 s2, agr s1 s2 -> rt (opcode_assemble c key t) (opcode_assemble c key t) s1 s2.
  Proof.
    intros c key t F s1 s2 H. unfold opcode_assemble.
    destruct (dget str_eqb (c_instructions c) key) as [[b|f]|]; rint.
    destruct (F f eq_refl s1 s2 H) as [A B]. unfold call_handler, rat.
    destruct (f t s1) as [t1 r1], (f t s2) as [t2 r2]. cbn [fst snd] in *. subst r2.
    destruct r1 as [[b|]|[e|e]]; split; auto.
  Qed.
  Lemma rat_store : forall pl t s1 s2, agr s1 s2 -> rt (store_tokens pl t) (store_tokens pl t) s1 s2.
  Proof.
    intros [|key i] t s1 s2 H; cbn [store_tokens]; [rint|]. apply rat_modify.
    pose proof (macro_get _ _ _ key (agree_macros _ _ _ _ H)) as G.
    destruct (dget str_eqb (macros s1) key) as [m1|], (dget str_eqb (macros s2) key) as [m2|]; try contradiction; auto.
    destruct G as [GA GB]. pose proof (body_nth _ _ _ i GB) as N.
    destruct (nth_error (m_body m1) i) as [x|], (nth_error (m_body m2) i) as [y|]; try contradiction; auto.
    apply agree_set_macros; auto. apply macro_set; cbn [m_args m_body]; auto; [apply (agree_macros _ _ _ _ H)|].
    apply body_replace; auto. destruct N as (N1 & N2 & N3). repeat split; cbn; auto.
  Qed.
  Lemma rat_macro_loop : forall (run1 run2 : place -> list str -> M unit) key args n params i,
    (forall pl t s1 s2, agr s1 s2 -> rt (run1 pl t) (run2 pl t) s1 s2) ->
    forall s1 s2, agr s1 s2 ->
    rt (macro_loop run1 key params args n i) (macro_loop run2 key params args n i) s1 s2.
  Proof.
    intros run1 run2 key args n. induction n as [|n IH]; intros params i R s1 s2 H; cbn [macro_loop]; [rint|].
    apply rat_get.
    pose proof (macro_get _ _ _ key (agree_macros _ _ _ _ H)) as G.
    destruct (dget str_eqb (macros s1) key) as [m1|], (dget str_eqb (macros s2) key) as [m2|]; try contradiction; [|rint].
    destruct G as [GA GB]. pose proof (body_nth _ _ _ i GB) as N.
    destruct (nth_error (m_body m1) i) as [x|], (nth_error (m_body m2) i) as [y|]; try contradiction; [|rint].
    destruct N as (N1 & N2 & N3). cbv zeta. rewrite <- N2. rint.
    - apply rat_store; auto.
    - apply R; auto.
    - apply rat_store; auto.
    - apply IH; auto.
  Qed.

  Lemma rat_instruction : forall c, plugins_oblivious lg ln c -> forall fuel l1 l2 pl t, (ln = false -> l1 = l2) ->
    forall s1 s2, agr s1 s2 -> rt (instruction_assemble c fuel l1 pl t) (instruction_assemble c fuel l2 pl t) s1 s2.
  Proof.
    intros c PO fuel. induction fuel as [|fuel IH]; intros l1 l2 pl t L s1 s2 H; cbn [instruction_assemble];
      apply rat_get; cbv zeta; same H; (destruct (macro_recording s1) as [key|];
      [ apply rat_modify; pose proof (macro_get _ _ _ key (agree_macros _ _ _ _ H)) as G;
        destruct (dget str_eqb (macros s1) key) as [m1|], (dget str_eqb (macros s2) key) as [m2|]; try contradiction; auto;
        destruct G as [GA GB]; apply agree_set_macros; auto; apply macro_set; cbn [m_args m_body]; auto;
          [apply (agree_macros _ _ _ _ H)|]; apply Forall2_app; auto; constructor; [|constructor]; repeat split; auto
      | ]);
      (apply rat_bind; [apply rat_store; auto|]; intros _ t1 t2 AT; apply rat_bind; [rint|]; intros t0 u1 u2 AU);
      (set (key := if case_sensitive (c_p c) then t0 else upper t0);
       pose proof (macro_get _ _ _ key (agree_macros _ _ _ _ H)) as G;
       destruct (dget str_eqb (macros s1) key) as [m1|], (dget str_eqb (macros s2) key) as [m2|]; try contradiction;
       [|apply rat_opcode; auto; intros f F; eapply (proj1 PO); eauto]).
    - rint.
    - destruct G as [GA GB]. rewrite GA. rewrite (F2_length _ _ _ _ _ GB). apply rat_macro_loop; auto.

  Qed.

  Lemma rat_statement : forall c, plugins_oblivious lg ln c -> forall fuel asm1 asm2 x y, same_stmt ln x y ->
    (forall code s1 s2, agr s1 s2 -> rt (asm1 code) (asm2 code) s1 s2) ->
    forall s1 s2, agr s1 s2 -> rt (statement_assemble c fuel asm1 x) (statement_assemble c fuel asm2 y) s1 s2.
  Proof.
    intros c PO fuel asm1 asm2 x y (K & T & L) AS s1 s2 H. unfold statement_assemble. rewrite <- K, <- T.
    destruct (s_kind x).
    - apply rat_instruction; auto.
    - apply rat_label_stmt; auto.
    - unfold directive_assemble. cbv zeta. apply rat_get. same H.
      apply rat_bind; [rint|]. intros t0 u1 u2 AU.
      destruct (dget str_eqb (c_directives c) _) as [d|] eqn:E; [|rint].
      apply rat_directive; auto. intros f ->. eapply (proj1 (proj2 PO)); eauto.
  Qed.

  Lemma rat_tail : forall c s1 s2, agr s1 s2 -> rt (assemble_tail c) (assemble_tail c) s1 s2.
  Proof.
    intros. unfold assemble_tail. apply rat_get. same H. rint.
    apply rat_modify. apply agree_close. auto.
  Qed.

  Lemma rat_assemble : forall c, plugins_oblivious lg ln c -> forall fuel code s1 s2, agr s1 s2 ->
    rt (assemble c fuel code) (assemble c fuel code) s1 s2.
  Proof.
    intros c PO fuel. induction fuel as [|fuel IH]; intros code s1 s2 H; cbn [assemble];
      (apply rat_bind; [rint|]; intros ss t1 t2 AT; apply rat_bind; [|intros _ u1 u2 AU; apply rat_tail; auto]);
      apply rat_iter1; auto; intros; apply rat_statement; auto using same_stmt_refl.
    intros; rint.
  Qed.

  Lemma rat_exec : forall c, plugins_oblivious lg ln c -> forall fuel ss1 ss2 s1 s2, agr s1 s2 ->
    Forall2 (same_stmt ln) ss1 ss2 -> rt (exec c fuel ss1) (exec c fuel ss2) s1 s2.
  Proof.
    intros c PO fuel ss1 ss2 s1 s2 H F. unfold exec. eapply rat_iter; eauto.
    intros x y t1 t2 S AT. apply rat_statement; auto. destruct fuel; intros; [rint|apply rat_assemble; auto].
  Qed.

  (** *** Linking *)
  Lemma rat_patch : forall be a size v n i s1 s2, agr s1 s2 ->
    rt (patch_loop be a size v i n) (patch_loop be a size v i n) s1 s2.
  Proof.
    intros be a size v n. induction n as [|n IH]; intros i s1 s2 H; cbn [patch_loop]; cbv zeta; [rint|].
    rint. apply rat_bind; [apply rat_modify; apply agree_set_assembled; auto|]. intros; apply IH; auto.
  Qed.
  Lemma rat_resolve : forall p lk a d, oblivious lg ln (lk_resolve lk a d) -> forall s1 s2, agr s1 s2 ->
    rt (resolve_one p lk a d) (resolve_one p lk a d) s1 s2.
  Proof.
    intros p lk a d LK s1 s2 H. unfold resolve_one. cbv zeta.
    apply rat_bind; [rint|]. intros ab t1 t2 AT. clear s1 s2 H.
    apply rat_bind.
    { destruct (negb (ld_relative d =? 0)); [|rint]. unfold rat. cbn [fst snd]. same AT. auto. }
    intros ta s1 s2 H. clear t1 t2 AT. apply rat_bind.
    { destruct ta; [rint|]. apply rat_bind; [apply LK; auto|]. intros; rint. }
    intros [v ab'] t1 t2 AT. clear s1 s2 H. destruct (ld_hook d) as [h|].
    - unfold apply_hook, rat. same AT. destruct (h a v (assembled t1)) as [out [e|]]; cbn [fst snd];
        split; auto; apply agree_set_assembled; auto.
    - rint. apply rat_patch; auto.
  Qed.
  Lemma rat_link : forall c lk, plugins_oblivious lg ln c -> linker_oblivious lg ln lk ->
    forall s1 s2, agr s1 s2 -> rt (link c lk) (link c lk) s1 s2.
  Proof.
    intros c lk PO [LR LL] s1 s2 H. unfold link.
    assert (P : forall l, (forall m, In m l -> oblivious lg ln m) -> forall s1 s2, agr s1 s2 ->
      rt (iter (fun m : M unit => m) l) (iter (fun m => m) l) s1 s2).
    { clear. induction l as [|m l IH]; intros F s1 s2 H; cbn [iter]; [rint|].
      apply rat_bind; [apply F; [left; auto|auto]|]. intros _ t1 t2 AT. apply IH; auto. intros; apply F; right; auto. }
    apply rat_bind. { apply P; auto. intros m I. apply (proj2 (proj2 PO)). apply in_or_app; auto. }
    intros _ t1 t2 AT. apply rat_bind.
    { unfold resolve_labels. apply rat_get. same AT. apply rat_iter1; auto. intros [a d] u1 u2 AU.
      apply rat_resolve; auto. }
    intros _ u1 u2 AU. apply rat_bind. { apply P; auto. intros m I. apply (proj2 (proj2 PO)). apply in_or_app; auto. }
    intros _ v1 v2 AV. apply rat_bind; [apply LL; auto|]. intros out w1 w2 AW.
    apply rat_modify. apply agree_set_assembled; auto.
  Qed.
End Sim.
