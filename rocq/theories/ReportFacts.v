(** Facts about the told runs of Report.v. *)
From Coq Require Import Lia.
From Verif Require Import Py PyFacts Utils Tokenizer State Assembler Report SpecExec SpecReport ExecFacts.
Local Open Scope Z_scope.

(** ** Telling does not disturb *)

Definition finish {A} (o : out A) : res unit :=
  match o with Fine _ => Ok tt | Raised e _ => Err e end.

Definition shows_at {A} (r : R A) (m : M unit) (s : st) : Prop :=
  forall g, to_st (r s g) = fst (m s) /\ finish (to_out (r s g)) = snd (m s).
Definition shows {A} (r : R A) (m : M unit) : Prop := forall s, shows_at r m s.

(** With the value. *)
Definition gives_at {A} (r : R A) (m : M A) (s : st) : Prop :=
  forall g, to_st (r s g) = fst (m s) /\
    match to_out (r s g) with Fine a => snd (m s) = Ok a | Raised e _ => snd (m s) = Err e end.

Lemma quietly_gives : forall A say (m : M A) s, gives_at (quietly say m) m s.
Proof.
  intros A say m s g. unfold quietly. destruct (m s) as [s' [a|[e|e]]]; cbn; auto.
Qed.
Lemma gives_shows : forall (r : R unit) m s, gives_at r m s -> shows_at r m s.
Proof.
  intros r m s H g. destruct (H g) as [E F]. split; [exact E|].
  destruct (to_out (r s g)) as [[]|]; cbn; auto.
Qed.
Lemma quietly_shows : forall say (m : M unit) s, shows_at (quietly say m) m s.
Proof. intros. apply gives_shows, quietly_gives. Qed.

Lemma then_shows : forall A B (r : R A) (k : A -> R B) (m : M A) (n : A -> M unit) s,
  gives_at r m s -> (forall a s', m s = (s', Ok a) -> shows_at (k a) (n a) s') ->
  shows_at (rthen r k) (bind m n) s.
Proof.
  intros A B r k m n s H K g. unfold rthen, bind. destruct (H g) as [E F].
  destruct (m s) as [s' [a|e]] eqn:M; cbn in E, F.
  - destruct (to_out (r s g)) as [b|]; [|discriminate]. injection F as ->.
    cbn [to_st to_out]. rewrite E. apply K. reflexivity.
  - destruct (to_out (r s g)) as [b|e' t] eqn:O; [discriminate|]. injection F as ->.
    cbn. auto.
Qed.
(** When the value is only carried along. *)
Lemma seq_shows : forall A B (r : R A) (k : A -> R B) (m : M unit) (n : unit -> M unit) s,
  shows_at r m s -> (forall a s', m s = (s', Ok tt) -> shows_at (k a) (n tt) s') ->
  shows_at (rthen r k) (bind m n) s.
Proof.
  intros A B r k m n s H K g. unfold rthen, bind. destruct (H g) as [E F].
  destruct (m s) as [s' [[]|e]] eqn:M; cbn in E, F.
  - destruct (to_out (r s g)) as [b|]; [|discriminate].
    cbn [to_st to_out]. rewrite E. apply K. reflexivity.
  - destruct (to_out (r s g)) as [b|e' t] eqn:O; [discriminate|]. injection F as ->.
    cbn. auto.
Qed.
Lemma tail_shows : forall A B (r : R A) (b : A -> B) (m : M unit) s,
  shows_at r m s -> shows_at (rthen r (fun a => rret (b a))) m s.
Proof.
  intros A B r b m s H g. unfold rthen. destruct (H g) as [E F].
  destruct (to_out (r s g)); cbn in *; auto.
Qed.
Lemma raise_shows : forall A e t s, shows_at (@rraise A e t) (araise e) s.
Proof. intros A e t s g. split; reflexivity. Qed.

Lemma bind_assoc : forall A B C (m : M A) (k : A -> M B) (n : B -> M C) s,
  bind (bind m k) n s = bind m (fun a => bind (k a) n) s.
Proof. intros. unfold bind. destruct (m s) as [s' [a|e]]; reflexivity. Qed.

Section Faith.
  Context (c : cfg) (said : option str -> Z -> list str -> asmexc -> str).
  Hypothesis alone : plugins_keep macros_alone c.
  Notation p := (c_p c).

  Lemma label_shows : forall ctx l t s, shows_at (r_label c ctx l t) (label_assemble c t) s.
  Proof. intros. apply (tail_shows _ _ _ (fun _ => t)). apply quietly_shows. Qed.

  Lemma run_directive_shows : forall rasm asm d ctx l t s,
    (forall f code s, shows_at (rasm f code) (asm code) s) ->
    shows_at (r_run_directive c said rasm d ctx l t) (run_directive c asm d t) s.
  Proof.
    intros rasm asm d ctx l t s H. destruct d; try (apply quietly_shows).
    - (* macro *)
      cbn [r_run_directive run_directive]. intros g. unfold rthen.
      destruct (quietly_shows (directive_says D_macro (statement_str ctx l t)) (macro_start p t) s g) as [E F].
      destruct (to_out _) as [[]|]; cbn in *; auto.
    - (* include *)
      cbn [r_run_directive run_directive]. unfold r_include, directive_include. intros g.
      set (m := (if negb (len_in t [2%nat]) then araise InvalidArgumentsForDirective
                 else let! t1 := tok_at t 1 in let! name := lift (stringify t1) in
                      let! code := open_file (file_text (c_env c)) name in ret (name, code))).
      assert (E : (if negb (len_in t [2%nat]) then araise InvalidArgumentsForDirective
                   else let! t1 := tok_at t 1 in let! name := lift (stringify t1) in
                      let! code := open_file (file_text (c_env c)) name in asm code) s
                  = bind m (fun x => asm (snd x)) s).
      { subst m. destruct (negb _); [reflexivity|]. unfold tok_at.
        destruct (nth_error t 1) as [t1|]; [|reflexivity].
        unfold bind, lift, ret. destruct (stringify t1) as [nm|]; [|reflexivity].
        unfold open_file. destruct (file_text (c_env c) nm); reflexivity. }
      rewrite E. revert g. apply then_shows; [apply quietly_gives|]. intros x s' _. apply H.
  Qed.

  Lemma directive_shows : forall rasm asm ctx l t s,
    (forall f code s, shows_at (rasm f code) (asm code) s) ->
    shows_at (r_directive c said rasm ctx l t) (directive_assemble c asm t) s.
  Proof.
    intros rasm asm ctx l t s H g. unfold r_directive, directive_assemble.
    unfold bind at 1, get. unfold bind at 2, get. revert g.
    refine (then_shows _ _ _ _ _ _ _ (quietly_gives _ _ _ _) _).
    intros t0 s' _. destruct (dget _ _ _) as [d|]; [|apply raise_shows].
    apply (tail_shows _ _ _ (fun _ => substitute_with_dict t (defines s) 1)).
    apply run_directive_shows. exact H.
  Qed.

  Lemma opcode_shows : forall key ctx l t s,
    shows_at (r_opcode c said key ctx l t) (opcode_assemble c key t) s.
  Proof.
    intros key ctx l t s. unfold r_opcode, opcode_assemble.
    destruct (dget _ _ _) as [[b|f]|]; [| |apply raise_shows].
    - destruct (negb _); [apply raise_shows|apply quietly_shows].
    - apply then_shows; [|intros; apply quietly_shows].
      intros g. unfold r_call_handler, call_handler.
      destruct (f t s) as [s' [[b|]|[e|e]]]; cbn; auto.
  Qed.

  (** *** Nothing is recorded while a macro runs *)

  Lemma opcode_alone : forall key t s, macros_alone s (fst (opcode_assemble c key t s)).
  Proof.
    intros key t s. unfold opcode_assemble.
    destruct (dget _ _ _) as [[b|f]|] eqn:D; [| |split; reflexivity].
    - destruct (negb _); split; reflexivity.
    - destruct alone as [HA _]. pose proof (HA key f t s D) as H.
      unfold bind, call_handler. destruct (f t s) as [s' [[b|]|[e|e]]]; exact H.
  Qed.
  Lemma store_recording : forall pl t s, macro_recording (fst (store_tokens pl t s)) = macro_recording s.
  Proof.
    intros [|key i] t s; [reflexivity|]. cbn. destruct (dget _ _ _); [|reflexivity].
    destruct (nth_error _ _); reflexivity.
  Qed.

  Lemma bind_recording : forall A B (m : M A) (k : A -> M B) s,
    macro_recording (fst (m s)) = None ->
    (forall a s', macro_recording s' = None -> macro_recording (fst (k a s')) = None) ->
    macro_recording (fst (bind m k s)) = None.
  Proof.
    intros A B m k s H K. unfold bind. destruct (m s) as [s' [a|e]]; cbn in *; auto.
  Qed.
  Lemma loop_recording : forall run key params args n i s,
    (forall pl t s, macro_recording s = None -> macro_recording (fst (run pl t s)) = None) ->
    macro_recording s = None ->
    macro_recording (fst (macro_loop run key params args n i s)) = None.
  Proof.
    intros run key params args n. induction n as [|n IH]; intros i s H N; cbn [macro_loop]; [exact N|].
    unfold bind at 1, get. destruct (dget _ _ _) as [m|]; [|exact N].
    destruct (nth_error _ _) as [x|]; [|exact N].
    apply bind_recording; [exact N|]. intros d s1 N1.
    apply bind_recording; [rewrite store_recording; exact N1|]. intros _ s2 N2.
    apply bind_recording; [apply H; exact N2|]. intros _ s3 N3.
    apply bind_recording; [rewrite store_recording; exact N3|]. intros _ s4 N4.
    apply IH; auto.
  Qed.
  Lemma instruction_recording : forall fuel l pl t s, macro_recording s = None ->
    macro_recording (fst (instruction_assemble c fuel l pl t s)) = None.
  Proof.
    induction fuel as [|fuel IH]; intros l pl t s N; cbn [instruction_assemble];
      unfold bind at 1, get; rewrite N.
    all: apply bind_recording; [rewrite store_recording; exact N|]; intros _ s1 N1.
    all: apply bind_recording; [unfold tok_at; destruct (nth_error _ _); exact N1|]; intros t0 s2 N2.
    all: destruct (dget _ _ _) as [m|].
    - exact N2.
    - rewrite (proj2 (opcode_alone _ _ _)). exact N2.
    - apply loop_recording; auto.
    - rewrite (proj2 (opcode_alone _ _ _)). exact N2.
  Qed.

  (** The line only matters while recording. *)
  Lemma loop_same : forall run1 run2 key params args n i s,
    (forall pl t s, macro_recording s = None -> run1 pl t s = run2 pl t s) ->
    (forall pl t s, macro_recording s = None -> macro_recording (fst (run1 pl t s)) = None) ->
    macro_recording s = None ->
    macro_loop run1 key params args n i s = macro_loop run2 key params args n i s.
  Proof.
    intros run1 run2 key params args n. induction n as [|n IH]; intros i s H K N; cbn [macro_loop]; [reflexivity|].
    unfold bind at 1 6, get. destruct (dget _ _ _) as [m|]; [|reflexivity].
    destruct (nth_error _ _) as [x|]; [|reflexivity].
    unfold bind at 1 5. unfold lift. destruct (macro_dict _ _ _) as [d|]; [|reflexivity].
    unfold bind at 1 4. pose proof (store_recording (InMacro key i) (substitute_with_dict (s_tokens x) d 0) s) as N1.
    destruct (store_tokens _ _ s) as [s1 [u|]]; [|reflexivity]. cbn in N1. rewrite N in N1.
    unfold bind at 1 3. rewrite <- H by exact N1. pose proof (K (InMacro key i) (substitute_with_dict (s_tokens x) d 0) s1 N1) as N2.
    destruct (run1 _ _ s1) as [s2 [u2|]]; [|reflexivity]. cbn in N2.
    unfold bind at 1 2. pose proof (store_recording (InMacro key i) (s_tokens x) s2) as N3.
    destruct (store_tokens _ _ s2) as [s3 [u3|]]; [|reflexivity]. cbn in N3. rewrite N2 in N3.
    apply IH; auto.
  Qed.
  Lemma line_irrelevant : forall fuel l l' pl t s, macro_recording s = None ->
    instruction_assemble c fuel l pl t s = instruction_assemble c fuel l' pl t s.
  Proof.
    induction fuel as [|fuel IH]; intros l l' pl t s N; cbn [instruction_assemble];
      unfold bind at 1 4, get; rewrite N; [reflexivity|].
    unfold bind at 1 3. pose proof (store_recording pl (substitute_with_dict t (defines s) 0) s) as N1.
    destruct (store_tokens _ _ s) as [s1 [u|]]; [|reflexivity]. cbn in N1. rewrite N in N1.
    unfold bind at 1 2. destruct (tok_at _ _ s1) as [s2 [t0|]] eqn:T; [|reflexivity].
    assert (N2 : macro_recording s2 = None).
    { unfold tok_at in T. destruct (nth_error _ _); [injection T as <- _; exact N1|discriminate]. }
    destruct (dget _ _ _) as [m|]; [|reflexivity].
    apply loop_same; auto. intros. apply instruction_recording. auto.
  Qed.

  Lemma loop_shows : forall rrun run key params args n i s,
    (forall ctx l pl t s, macro_recording s = None -> shows_at (rrun ctx l pl t) (run pl t) s) ->
    (forall pl t s, macro_recording s = None -> macro_recording (fst (run pl t s)) = None) ->
    macro_recording s = None ->
    shows_at (r_macro_loop rrun key params args n i) (macro_loop run key params args n i) s.
  Proof.
    intros rrun run key params args n. induction n as [|n IH]; intros i s H K N; cbn [r_macro_loop macro_loop].
    - intros g. split; reflexivity.
    - intros g. unfold bind at 1 6, get. destruct (dget str_eqb (macros s) key) as [m|]; [|split; reflexivity].
      destruct (nth_error (m_body m) i) as [x|]; [|split; reflexivity].
      generalize (match dget str_eqb g key with Some l => nth i l None | None => None end). intros ctx.
      revert g. refine (then_shows _ _ _ _ _ _ _ (quietly_gives _ _ _ _) _). intros d s1 E1. injection E1 as <- E1.
      apply seq_shows; [apply quietly_shows|]. intros _ s2 E2.
      assert (N2 : macro_recording s2 = None).
      { rewrite <- N, <- (store_recording (InMacro key i) (substitute_with_dict (s_tokens x) d 0) s), E2. reflexivity. }
      apply seq_shows; [apply H; exact N2|]. intros _ s3 E3.
      assert (N3 : macro_recording s3 = None).
      { pose proof (K (InMacro key i) (substitute_with_dict (s_tokens x) d 0) s2 N2) as Q. rewrite E3 in Q. exact Q. }
      apply seq_shows; [apply quietly_shows|]. intros _ s4 E4.
      apply IH; auto.
      rewrite <- N3, <- (store_recording (InMacro key i) (s_tokens x) s3), E4. reflexivity.
  Qed.

  Lemma instruction_shows : forall fuel ctx l l' pl t s, l = l' \/ macro_recording s = None ->
    shows_at (r_instruction c said fuel ctx l pl t) (instruction_assemble c fuel l' pl t) s.
  Proof.
    induction fuel as [|fuel IH]; intros ctx l l' pl t s L g; cbn [r_instruction instruction_assemble];
      unfold bind at 1, get; unfold bind at 3, get; destruct (macro_recording s) as [key|] eqn:N.
    1, 3: destruct L as [<-|]; [|discriminate]; unfold rthen, r_record, modify;
      destruct (dget _ _ _); split; reflexivity.
    all: revert g; refine (seq_shows _ _ _ _ _ _ _ (quietly_shows _ _ _) _); intros _ s1 E1.
    all: apply then_shows; [apply quietly_gives|]; intros t0 s2 E2.
    all: assert (N2 : macro_recording s2 = None) by
      (rewrite <- N, <- (store_recording pl (substitute_with_dict t (defines s) 0) s), E1; cbn;
       unfold tok_at in E2; destruct (nth_error _ _); [injection E2 as -> _; reflexivity|discriminate]).
    all: destruct (dget str_eqb (macros s) _) as [m|].
    - intros g. split; reflexivity.
    - apply (tail_shows _ _ _ (fun _ => substitute_with_dict t (defines s) 0)). apply opcode_shows.
    - apply (tail_shows _ _ _ (fun _ => substitute_with_dict t (defines s) 0)). apply loop_shows; auto.
      intros. apply instruction_recording; auto.
    - apply (tail_shows _ _ _ (fun _ => substitute_with_dict t (defines s) 0)). apply opcode_shows.
  Qed.

  Lemma statement_shows : forall fuel rasm asm ctx x s,
    (forall f code s, shows_at (rasm f code) (asm code) s) ->
    shows_at (r_statement c said fuel rasm ctx x) (statement_assemble c fuel asm x) s.
  Proof.
    intros fuel rasm asm ctx x s H. unfold r_statement, statement_assemble. destruct (s_kind x).
    - apply instruction_shows; auto.
    - apply label_shows.
    - apply directive_shows; auto.
  Qed.

  Lemma statements_shows : forall fuel rasm asm ctx ss s,
    (forall f code s, shows_at (rasm f code) (asm code) s) ->
    shows_at (r_statements c said fuel rasm ctx ss) (iter (statement_assemble c fuel asm) ss) s.
  Proof.
    intros fuel rasm asm ctx ss. induction ss as [|x ss IH]; intros s H; cbn [r_statements iter].
    - intros g. split; reflexivity.
    - apply seq_shows; [apply statement_shows; auto|]. intros t s1 _ g.
      specialize (IH s1 H g). unfold rthen. destruct (log s1); exact IH.
  Qed.

  Lemma assemble_shows : forall fuel ctx code s,
    shows_at (r_assemble c said fuel ctx code) (assemble c fuel code) s.
  Proof.
    induction fuel as [|fuel IH]; intros ctx code s; cbn [r_assemble assemble].
    all: apply then_shows; [intros g; unfold r_tokenize, lift; destruct (tokenize code); cbn; auto|].
    all: intros ss s1 _; apply seq_shows; [|intros; apply quietly_shows].
    all: apply statements_shows; intros; [apply quietly_shows || apply IH].
  Qed.
End Faith.

(** ** What is said *)

Lemma place_text_eq : forall f l t, statement_str f l t = place_text f l t.
Proof. intros [f|] l t; unfold statement_str, place_text; cbn [app]; rewrite <- ?app_assoc; reflexivity. Qed.

(** *** Errors of reading numbers *)

Definition about_number (e : asmexc) : Prop :=
  match e with
  | NotInBitRange _ _ None | NegativeSignNotAllowed | UnknownLabel _ => True
  | _ => False
  end.

Lemma prefixes_python : forall l base dec t o e, try_prefixes l base dec t o = Err (AExc e) -> o = Err (AExc e).
Proof.
  induction l as [|x l IH]; intros base dec t o e H; cbn [try_prefixes] in H; auto.
  destruct (starts_with x t); [|eauto]. destruct (py_int _ _); discriminate.
Qed.
Lemma suffixes_python : forall l base dec t o e, try_suffixes l base dec t o = Err (AExc e) -> o = Err (AExc e).
Proof.
  induction l as [|x l IH]; intros base dec t o e H; cbn [try_suffixes] in H; auto.
  destruct (_ && _); [|eauto]. destruct (py_int _ _); discriminate.
Qed.
Lemma internal_python : forall p t e, internal_parse_integer p t <> Err (AExc e).
Proof.
  intros p t e H.
  assert (N : forall u, parse_number p u <> Err (AExc e)).
  { intros u Q. unfold parse_number in Q. do 4 apply prefixes_python in Q. do 4 apply suffixes_python in Q.
    destruct (py_int 10 u); discriminate. }
  destruct t as [|a t]; cbn [internal_parse_integer] in H; [discriminate|].
  destruct (Ascii.eqb a squote); [|exact (N _ H)].
  destruct (nth_error (a :: t) 2); [|discriminate]. destruct (Ascii.eqb _ squote); [|exact (N _ H)].
  destruct (nth_error (a :: t) 1); discriminate.
Qed.
Lemma check_number : forall v d n b e, check_integer v d n b = Err (AExc e) -> about_number e.
Proof.
  intros v d n b e H. unfold check_integer, rbind in H.
  repeat match type of H with context [if ?x then _ else _] => destruct x end;
    try discriminate; injection H as <-; exact I.
Qed.
Lemma parse_with_number : forall p amf t n b e,
  (forall pre post v e, amf pre post v = Err (AExc e) -> about_number e) ->
  parse_integer_with p amf t n b = Err (AExc e) -> about_number e.
Proof.
  intros p amf t n b e A H. unfold parse_integer_with in H.
  destruct (get_math_formula t) as [[tk pre] post]. unfold rbind in H.
  destruct (internal_parse_integer p tk) as [[[v|] d]|x] eqn:I; try discriminate.
  - destruct (amf pre post v) as [w|x] eqn:F; [|injection H as ->; eauto].
    destruct (check_integer w d n b) as [w'|x] eqn:C; [discriminate|]. injection H as ->.
    eapply check_number; eauto.
  - injection H as ->. exfalso. exact (internal_python _ _ _ I).
Qed.
Lemma ops_number : forall argval ops w e,
  (forall a e, argval a = Err (AExc e) -> about_number e) ->
  ops_loop argval ops w = Err (AExc e) -> about_number e.
Proof.
  intros argval ops. induction ops as [|[cmd arg] ops IH]; intros w e A H; cbn [ops_loop] in H; [discriminate|].
  unfold rbind in H.
  destruct (match arg with [] => Ok 1 | _ => argval arg end) as [y|x] eqn:Y.
  - destruct (apply_command cmd w y) as [z|x] eqn:C; [eauto|]. injection H as ->. unfold apply_command in C.
    repeat match type of C with (if ?x then _ else _) = _ => destruct x end; discriminate.
  - injection H as ->. destruct arg; [discriminate|eauto].
Qed.
Lemma formula_number : forall p lbls fuel pre post v e,
  apply_math_formula p lbls fuel pre post v = Err (AExc e) -> about_number e.
Proof.
  intros p lbls fuel. induction fuel as [|fuel IH]; intros pre post v e H; cbn [apply_math_formula] in H;
    (eapply ops_number; [|exact H]); clear H; intros arg e' H; [discriminate|]. unfold rbind in H.
  destruct (parse_integer_with p _ arg 64 false) as [[y|]|x] eqn:P; [discriminate| |].
  - destruct (label_by_name_with _ _ arg 0) as [[y|]|x] eqn:Q; [discriminate| |].
    + injection H as <-. exact I.
    + injection H as ->. unfold label_by_name_with in Q. destruct (get_math_formula _) as [[nm pr] po].
      destruct (dget _ _ _); [|discriminate]. unfold rbind in Q.
      destruct (apply_math_formula _ _ _ _ _ _) eqn:F; [discriminate|]. injection Q as ->. eauto.
  - injection H as ->. eapply parse_with_number; eauto.
Qed.
Lemma parse_number_error : forall p lbls t n b e,
  parse_integer p lbls t n b = Err (AExc e) -> about_number e.
Proof. intros. eapply parse_with_number; eauto. intros. eapply formula_number; eauto. Qed.

(** *** What directives raise *)

Definition plain {A} (E : asmexc -> Prop) (m : M A) : Prop :=
  forall s, (macros (fst (m s)) = macros s /\ log (fst (m s)) = log s) /\
    forall e, snd (m s) = Err (AExc e) -> E e.

Section Plain.
  Context (E : asmexc -> Prop).
  Lemma plain_ret : forall A (a : A), plain E (ret a).
  Proof. intros A a s. split; [split; reflexivity|discriminate]. Qed.
  Lemma plain_get : plain E get.
  Proof. intros s. split; [split; reflexivity|discriminate]. Qed.
  Lemma plain_praise : forall A e, plain E (@praise A e).
  Proof. intros A e s. split; [split; reflexivity|discriminate]. Qed.
  Lemma plain_araise : forall A e, E e -> plain E (@araise A e).
  Proof. intros A e H s. split; [split; reflexivity|]. intros e' Q. injection Q as <-. exact H. Qed.
  Lemma plain_modify : forall f, (forall s, macros (f s) = macros s /\ log (f s) = log s) -> plain E (modify f).
  Proof. intros f H s. split; [apply H|discriminate]. Qed.
  Lemma plain_lift : forall A (r : res A), (forall e, r = Err (AExc e) -> E e) -> plain E (lift r).
  Proof. intros A r H s. split; [split; reflexivity|exact H]. Qed.
  Lemma plain_bind : forall A B (m : M A) (k : A -> M B), plain E m -> (forall a, plain E (k a)) -> plain E (bind m k).
  Proof.
    intros A B m k H K s. unfold bind. destruct (H s) as [H1 H2]. destruct (m s) as [s' [a|e]]; cbn in *.
    - destruct (K a s') as [K1 K2]. split; [destruct H1, K1; split; congruence|exact K2].
    - split; [exact H1|]. intros e' Q. injection Q as ->. auto.
  Qed.
  Lemma plain_iter : forall A (f : A -> M unit) l, (forall a, plain E (f a)) -> plain E (iter f l).
  Proof. intros A f l H. induction l; cbn [iter]; [apply plain_ret|apply plain_bind; auto]. Qed.
  Lemma plain_times : forall n m, plain E m -> plain E (times n m).
  Proof. intros n m H. induction n; cbn [times]; [apply plain_ret|apply plain_bind; auto]. Qed.
  Lemma plain_parse : forall p t n b, (forall e, about_number e -> E e) -> plain E (m_parse_integer p t n b).
  Proof. intros p t n b H s. split; [split; reflexivity|]. intros e Q. apply H. eapply parse_number_error. exact Q. Qed.
  Lemma plain_tok_at : forall t i, plain E (tok_at t i).
  Proof. intros. unfold tok_at. destruct (nth_error t i); [apply plain_ret|apply plain_praise]. Qed.
  Lemma plain_open : forall A (f : str -> option A) n, plain E (open_file f n).
  Proof. intros. unfold open_file. destruct (f n); [apply plain_ret|apply plain_praise]. Qed.
  Lemma plain_append : forall b, plain E (append_assembled_bytes b).
  Proof. intros. apply plain_modify. split; reflexivity. Qed.
End Plain.

Definition python {A} (r : res A) : Prop := forall e, r <> Err (AExc e).
Lemma python_ok : forall A (a : A), python (Ok a).
Proof. intros A a e. discriminate. Qed.
Lemma python_fill : forall v n, python (fill_blob v n).
Proof. intros v n e. unfold fill_blob. destruct (n <=? 0); [|destruct (_ && _)]; discriminate. Qed.
Lemma python_quoted : forall t, python (is_quoted t).
Proof. intros [|a t] e; discriminate. Qed.
Lemma python_stringify : forall t, python (stringify t).
Proof. intros [|a t] e; unfold stringify, rbind; cbn; discriminate. Qed.
Lemma python_ascii : forall t, python (encode_ascii t).
Proof.
  induction t as [|a t IH]; intros e; cbn [encode_ascii]; [discriminate|].
  destruct (ord a <? 128); [|discriminate]. unfold rbind. specialize (IH e). destruct (encode_ascii t); congruence.
Qed.
Lemma python_struct : forall be fs vs, python (struct_pack be fs vs).
Proof.
  intros be fs. induction fs as [|f fs IH]; intros [|v vs] e; cbn [struct_pack]; try discriminate.
  unfold rbind, struct_pack1. match goal with |- context [if ?b then Ok _ else _] => destruct b end; [|discriminate].
  specialize (IH vs e). destruct (struct_pack be fs vs); congruence.
Qed.
Lemma python_json_path : forall ks j, python (json_path j ks).
Proof.
  induction ks as [|k ks IH]; intros j e; cbn [json_path]; [discriminate|].
  destruct j; try discriminate. destruct (dget _ _ _); [apply IH|discriminate].
Qed.
Lemma python_json_items : forall j, python (json_items j).
Proof. intros j e. destruct j; discriminate. Qed.
#[local] Hint Resolve python_ok python_fill python_quoted python_stringify python_ascii python_struct
  python_json_path python_json_items : python.
Lemma plain_python : forall E A (r : res A), python r -> plain E (lift r).
Proof. intros E A r H. apply plain_lift. intros e Q. destruct (H e Q). Qed.

(** With or without the statement, as the table of texts has it. *)
Definition fair (d : directive) (e : asmexc) : Prop :=
  (forall w, directive_says d w e = message_at e w) \/
  (placeless e /\ forall w, directive_says d w e = message e).

Lemma fair_number : forall d e, about_number e -> fair d e.
Proof. intros d e H. right. destruct e; try destruct H; try (destruct l; [destruct H|]); split; cbn; auto. Qed.

Ltac plainly1 :=
  match goal with
  | |- plain _ (bind _ _) => apply plain_bind; [|intros]
  | |- plain _ (ret _) => apply plain_ret
  | |- plain _ get => apply plain_get
  | |- plain _ (praise _) => apply plain_praise
  | |- plain _ (araise _) => apply plain_araise; first [left; reflexivity | right; split; [exact I|reflexivity]]
  | |- plain _ (append_assembled_bytes _) => apply plain_append
  | |- plain _ (append_raw _) => apply plain_modify; split; reflexivity
  | |- plain _ (m_parse_integer _ _ _ _) => apply plain_parse; apply fair_number
  | |- plain _ (tok_at _ _) => apply plain_tok_at
  | |- plain _ (open_file _ _) => apply plain_open
  | |- plain _ (lift (if ?b then _ else _)) => destruct b
  | |- plain _ (lift _) => apply plain_python; unfold byte_blob, pack_byte, pack_le16u, pack_be16u, pack_le32u, pack_be32u, pack_u; auto with python
  | |- plain _ (iter _ _) => apply plain_iter; intros
  | |- plain _ (times _ _) => apply plain_times
  | |- plain _ (int_arg _ _ _) => unfold int_arg
  | |- plain _ (fill_arg _ _) => unfold fill_arg
  | |- plain _ (modify close_section) =>
      apply plain_modify; intros; unfold close_section;
      destruct (current_section _) as [[|]|]; try (split; reflexivity); destruct (dget _ _ _); split; reflexivity
  | |- plain _ (modify _) => apply plain_modify; split; reflexivity
  | |- plain _ (add_label_translation _) => apply plain_modify; split; reflexivity
  | |- plain _ (parse_integer_or_label _ _ _) => unfold parse_integer_or_label
  | |- plain _ (change_org _ _ _) => unfold change_org
  | |- plain _ (let _ := _ in _) => cbv zeta
  | |- plain _ (if ?b then _ else _) => destruct b
  | |- plain _ (match ?x with _ => _ end) => destruct x
  end.

Lemma plain_data : forall d p n enc pk t, (forall x, python (enc x)) -> (forall x, python (pk x)) ->
  plain (fair d) (data_token p n enc pk t).
Proof. intros d p n enc pk t H1 H2. unfold data_token. repeat (plainly1 || (apply plain_python; auto)). Qed.
Lemma plain_text : forall d p n w u t, plain (fair d) (to_ascii_token p n w u t).
Proof. intros. unfold to_ascii_token. repeat plainly1. Qed.
Lemma plain_csv : forall d p n pk cols b, d = D_inccsv \/ d = D_inccsv_le16 -> (forall x, python (pk x)) ->
  plain (fair d) (csv_blob p n pk cols b).
Proof.
  intros d p n pk cols b D H. revert b. induction cols; intros b; cbn [csv_blob].
  - plainly1.
  - destruct D as [->| ->]; repeat (plainly1 || apply IHcols || (apply plain_python; auto)).
Qed.
Lemma plain_json : forall p l b, plain (fair D_incjson) (json_blob p l b).
Proof. intros p l. induction l; intros b; cbn [json_blob]; repeat (plainly1 || apply IHl). Qed.

Lemma plain_directive : forall c asm d t,
  match d with D_macro | D_include | D_log | D_custom _ => True | _ => plain (fair d) (run_directive c asm d t) end.
Proof.
  intros c asm d t. destruct d; try exact I; cbn [run_directive].
  all: unfold macro_end, directive_org, directive_incbin, directive_inccsv, directive_incjson,
    directive_define, directive_db, directive_dw, directive_dd, directive_db_to_ascii, directive_dw_to_ascii,
    directive_db_to_asciiz, directive_dw_to_asciiz, directive_db_to_ascii, directive_dw_to_ascii,
    directive_fill, directive_ram, directive_log, directive_align,
    directive_repeat, directive_end_repeat, directive_goto, directive_upto, directive_goto_upto,
    directive_section, directive_export.
  all: repeat (plainly1 || apply plain_text || apply plain_json ||
    (apply plain_csv; [auto|intros; unfold byte_blob, pack_le16u, pack_u; auto with python]) ||
    (apply plain_data; intros; [auto with python|];
     repeat match goal with |- context [if ?b then _ else _] => destruct b end;
     unfold pack_byte, pack_le16u, pack_be16u, pack_le32u, pack_be32u, pack_u; auto with python)).
Qed.

(** ** Every failure is explained *)

Lemma tokenize_python : forall code e, tokenize code <> Err (AExc e).
Proof.
  intros code e. unfold tokenize, rbind. generalize (code ++ [nl]) as t, tok_init as k.
  intros t k H. assert (X : tok_run k t <> Err (AExc e)).
  { clear H. revert k. induction t as [|a t IH]; intros k; cbn [tok_run]; [discriminate|].
    unfold rbind. destruct (tok_step k a) as [k'|x] eqn:S; [apply IH|]. intros Q. injection Q as ->.
    unfold tok_step in S. destruct (t_state k); try discriminate. unfold state_token in S.
    repeat match type of S with (if ?b then _ else _) = _ => destruct b end; try discriminate.
    unfold token_colon in S. destruct (t_tokens k); discriminate. }
  destruct (tok_run k t); [discriminate|]. injection H as ->. auto.
Qed.

Section Explained.
  Context (c : cfg) (said : option str -> Z -> list str -> asmexc -> str).
  Context (L : option str -> Z -> Prop).
  Hypothesis alone : plugins_keep macros_alone c.
  Notation p := (c_p c).
  Notation explained := (explained c said L).

  Definition good {A} (r : told A) : Prop :=
    known_bodies L (to_st r) (to_tags r) /\
    forall e t, to_out r = Raised (AExc e) t -> exists m, t = Some m /\ explained e m.
  Definition holds {A} (r : R A) : Prop := forall s g, known_bodies L s g -> good (r s g).

  Lemma explained_at : forall e f l t, L f l -> explained e (message_at e (statement_str f l t)).
  Proof. intros. unfold message_at. rewrite place_text_eq. apply ex_framework. auto. Qed.

  Lemma holds_ret : forall A (a : A), holds (rret a).
  Proof. intros A a s g K. split; [exact K|discriminate]. Qed.
  Lemma holds_raise : forall A e m, explained e m -> holds (@rraise A e m).
  Proof. intros A e m H s g K. split; [exact K|]. intros e' t Q. injection Q as <- <-. eauto. Qed.
  Lemma holds_then : forall A B (r : R A) (k : A -> R B), holds r -> (forall a, holds (k a)) -> holds (rthen r k).
  Proof.
    intros A B r k H K s g I. unfold rthen. destruct (H s g I) as [H1 H2].
    destruct (to_out (r s g)) as [a|e t] eqn:O.
    - destruct (K a _ _ H1) as [K1 K2]. split; cbn; auto.
    - split; cbn; [exact H1|]. intros e' t' Q. injection Q as -> <-. eauto.
  Qed.
  Lemma known_same : forall s s' g, macros s' = macros s -> known_bodies L s g -> known_bodies L s' g.
  Proof. intros s s' g E K key m. rewrite E. apply K. Qed.
  Lemma holds_quietly : forall A say E (m : M A), plain E m -> (forall e, E e -> explained e (say e)) ->
    holds (quietly say m).
  Proof.
    intros A say E m H X s g K. unfold quietly. destruct (H s) as [[H1 _] H2].
    destruct (m s) as [s' [a|[e|e]]]; (split; [eapply known_same; eauto|]); try discriminate.
    cbn. intros e' t Q. injection Q as <- <-. eauto.
  Qed.

  Lemma store_known : forall pl t s g, known_bodies L s g -> known_bodies L (fst (store_tokens pl t s)) g.
  Proof.
    intros [|key i] t s g K; [exact K|]. cbn. destruct (dget str_eqb (macros s) key) as [m|] eqn:D; [|exact K].
    destruct (nth_error (m_body m) i) as [x|] eqn:N; [|exact K].
    intros key' m'. cbn [macros set_macros]. rewrite ExecFacts.dget_dset.
    destruct (str_eqb key' key) eqn:E; [|apply K].
    intros Q. injection Q as <-. apply str_eqb_eq in E. subst key'. destruct (K _ _ D) as (l & G & F).
    exists l. split; [exact G|]. cbn [m_body]. clear G D K. revert l i N F.
    induction (m_body m) as [|y b IH]; intros l i N F; [destruct i; discriminate|].
    inversion F as [|f y' l' b' F1 F2]; subst. destruct i as [|i]; cbn in N |- *.
    - injection N as ->. constructor; auto.
    - constructor; auto.
  Qed.
  Lemma holds_store : forall pl t, holds (quietly message (store_tokens pl t)).
  Proof.
    intros pl t s g K. pose proof (store_known pl t s g K) as Q. unfold quietly.
    assert (O : snd (store_tokens pl t s) = Ok tt) by (destruct pl; reflexivity).
    destruct (store_tokens pl t s) as [s' r]. cbn in Q, O. subst r. split; [exact Q|discriminate].
  Qed.

  Lemma holds_tok_at : forall t i, holds (quietly message (tok_at t i)).
  Proof.
    intros t i. apply (holds_quietly _ _ (fun _ => False)); [apply plain_tok_at|]. intros e [].
  Qed.

  Lemma label_holds : forall ctx l t, L ctx l -> holds (r_label c ctx l t).
  Proof.
    intros ctx l t H. apply holds_then; [|intros; apply holds_ret].
    apply (holds_quietly _ _ (fun e => (forall w, label_says w e = message_at e w) \/
                                       (placeless e /\ forall w, label_says w e = message e))).
    - assert (AN : forall e, about_number e -> (forall w, label_says w e = message_at e w) \/
                                       (placeless e /\ forall w, label_says w e = message e)).
      { intros e A. right. destruct e; try destruct A; try (destruct l0; [destruct A|]); split; cbn; auto. }
      unfold label_assemble. apply plain_bind; [apply plain_get|]. intros s.
      destruct (macro_recording s); [apply plain_araise; left; reflexivity|].
      apply plain_bind; [apply plain_tok_at|]. intros key.
      destruct (dmem _ _ _); [apply plain_araise; left; reflexivity|].
      destruct (negb _); [apply plain_araise; left; reflexivity|].
      apply plain_bind; [apply plain_parse, AN|]. intros [v|]; [apply plain_araise; left; reflexivity|].
      apply plain_modify. split; reflexivity.
    - intros e [Q|[Q1 Q2]]; [rewrite Q; apply explained_at; auto|rewrite Q2; apply ex_placeless; auto].
  Qed.

  Lemma fair_explained : forall d e ctx l t, L ctx l -> fair d e ->
    explained e (directive_says d (statement_str ctx l t) e).
  Proof.
    intros d e ctx l t H [Q|[Q1 Q2]]; [rewrite Q; apply explained_at; auto|rewrite Q2; apply ex_placeless; auto].
  Qed.

  Lemma macro_holds : forall ctx l t, L ctx l ->
    holds (rthen (quietly (directive_says D_macro (statement_str ctx l t)) (macro_start p t)) (fun _ => new_tags c t)).
  Proof.
    intros ctx l t H s g K. unfold rthen, quietly, macro_start, bind, get.
    destruct (macro_recording s) as [k|].
    - split; [exact K|]. intros e m Q. injection Q as <- <-. eexists. split; [reflexivity|].
      apply explained_at. exact H.
    - destruct t as [|t0 [|name args]]; cbn [skipn]; [split; [exact K|discriminate]..|].
      split; [|discriminate]. unfold modify, new_tags. cbn [to_st to_tags to_out nth].
      intros key m. cbn [macros set_macro_recording set_macros].
      generalize (if case_sensitive p then name else upper name). intros nk. rewrite ExecFacts.dget_dset.
      destruct (str_eqb key nk) eqn:E; intros Q.
      + injection Q as <-. exists []. rewrite ExecFacts.dget_dset, E. split; [reflexivity|constructor].
      + destruct (K _ _ Q) as (l0 & G0 & F0). exists l0. rewrite ExecFacts.dget_dset, E. auto.
  Qed.

  Lemma run_directive_holds : forall rasm d k ctx l t, L ctx l ->
    dget str_eqb (c_directives c) k = Some d ->
    (forall f code, file_text (c_env c) f = Some code -> holds (rasm (Some f) code)) ->
    holds (r_run_directive c said rasm d ctx l t).
  Proof.
    intros rasm d k ctx l t H D A.
    assert (P := plain_directive c (fun _ => ret tt) d t).
    destruct d; cbn [r_run_directive];
      try (apply (holds_quietly _ _ _ _ P); intros; apply fair_explained; auto; fail).
    - apply macro_holds. exact H.
    - (* include *)
      unfold r_include. intros s g K.
      set (m := (if negb (len_in t [2%nat]) then araise InvalidArgumentsForDirective
                 else let! t1 := tok_at t 1 in let! name := lift (stringify t1) in
                      let! code := open_file (file_text (c_env c)) name in ret (name, code))).
      assert (PL : plain (fair D_include) m) by (subst m; repeat plainly1).
      assert (V : forall x, snd (m s) = Ok x -> file_text (c_env c) (fst x) = Some (snd x)).
      { intros x. subst m. destruct (negb _); [discriminate|]. unfold tok_at.
        destruct (nth_error t 1) as [t1|]; [|discriminate].
        unfold bind, lift, ret. destruct (stringify t1) as [nm|]; [|discriminate].
        unfold open_file. destruct (file_text (c_env c) nm) eqn:F; [|discriminate].
        cbn. intros Q. injection Q as <-. exact F. }
      assert (HQ := holds_quietly _ (directive_says D_include (statement_str ctx l t)) _ m PL
                     (fun e Fe => fair_explained _ e ctx l t H Fe) s g K).
      unfold rthen. destruct HQ as [H1 H2].
      destruct (to_out _) as [x|e tx] eqn:O.
      + assert (G : file_text (c_env c) (fst x) = Some (snd x)).
        { apply V. unfold quietly in O. destruct (m s) as [s' [y|[e|e]]]; cbn in O; try discriminate.
          injection O as ->. reflexivity. }
        destruct (A _ _ G _ _ H1) as [K1 K2]. split; cbn; auto.
      + split; cbn; [exact H1|]. intros e' t' Q. injection Q as -> <-. eauto.
    - (* log *)
      intros s g K. unfold quietly. cbn [run_directive]. unfold directive_log.
      destruct t as [|t0 [|t1 t]]; [split; [exact K|discriminate]..|].
      destruct (str_eqb _ _); [|destruct (str_eqb _ _)]; (split; [exact K|discriminate]).
    - intros s g K. destruct alone as [_ HA]. destruct (HA k f t s D) as [H1 _].
      unfold quietly. destruct (f t s) as [s' [u|[e|e]]]; (split; [eapply known_same; eauto|]); try discriminate.
      cbn. intros e' tx Q. injection Q as <- <-. eexists. split; [reflexivity|]. eapply ex_extra; eauto.
  Qed.

  Lemma directive_holds : forall rasm ctx l t, L ctx l ->
    (forall f code, file_text (c_env c) f = Some code -> holds (rasm (Some f) code)) ->
    holds (r_directive c said rasm ctx l t).
  Proof.
    intros rasm ctx l t H A s g. unfold r_directive. revert s g.
    assert (X : forall ds, holds (
       (let tokens := substitute_with_dict t ds 1 in
       let+ t0 := quietly message (tok_at tokens 0) in
       let key := skipn 1 t0 in
       let key := if case_sensitive p then key else upper key in
       match dget str_eqb (c_directives c) key with
       | None => rraise UnknownDirective (message_at UnknownDirective (statement_str ctx l tokens))
       | Some d => let+ _ := r_run_directive c said rasm d ctx l tokens in rret tokens
       end))).
    { intros ds. cbv zeta. apply holds_then; [apply holds_tok_at|]. intros t0.
      destruct (dget _ _ _) as [d|] eqn:D.
      - apply holds_then; [eapply run_directive_holds; eauto|intros; apply holds_ret].
      - apply holds_raise. apply explained_at. exact H. }
    intros s g. apply X.
  Qed.

  Lemma opcode_holds : forall key ctx l t, L ctx l -> holds (r_opcode c said key ctx l t).
  Proof.
    intros key ctx l t H. unfold r_opcode.
    assert (AP : forall b, holds (quietly message (append_assembled_bytes b))).
    { intros b. apply (holds_quietly _ _ (fun _ => False)); [apply plain_append|]. intros e []. }
    destruct (dget _ _ _) as [[b|f]|] eqn:D.
    - destruct (negb _); [apply holds_raise, explained_at; auto|apply AP].
    - apply holds_then; [|intros; apply AP]. intros s g K. unfold r_call_handler.
      destruct alone as [HA _]. destruct (HA key f t s D) as [H1 _].
      destruct (f t s) as [s' [[b|]|[e|e]]]; (split; [eapply known_same; eauto|]); try discriminate;
        cbn [to_out]; intros e' tx Q; injection Q as <- <-; eexists; (split; [reflexivity|]).
      + exact (explained_at InvalidInstruction ctx l t H).
      + rewrite place_text_eq. apply ex_handler. exact H.
      + exact (explained_at InvalidInstruction ctx l t H).
    - apply holds_raise, explained_at. exact H.
  Qed.

  Lemma loop_holds : forall run key params args n i,
    (forall ctx l pl t, L ctx l -> holds (run ctx l pl t)) ->
    holds (r_macro_loop run key params args n i).
  Proof.
    intros run key params args n. induction n as [|n IH]; intros i H; cbn [r_macro_loop]; [apply holds_ret|].
    intros s g K. destruct (dget str_eqb (macros s) key) as [m|] eqn:D; [|split; [exact K|discriminate]].
    destruct (nth_error (m_body m) i) as [x|] eqn:N; [|split; [exact K|discriminate]].
    destruct (K _ _ D) as (tl & G & F). rewrite G.
    assert (LX : L (nth i tl None) (s_line x)).
    { clear - F N. revert i N. induction F as [|f y l b F1 F2 IHF]; intros i N; [destruct i; discriminate|].
      destruct i; cbn in *; [congruence|auto]. }
    revert K. generalize s g. change (holds
      (let+ d := quietly message (lift (macro_dict params args [])) in
       let tokens := substitute_with_dict (s_tokens x) d 0 in
       let+ _ := quietly message (store_tokens (InMacro key i) tokens) in
       let+ _ := run (nth i tl None) (s_line x) (InMacro key i) tokens in
       let+ _ := quietly message (store_tokens (InMacro key i) (s_tokens x)) in
       r_macro_loop run key params args n (S i))).
    apply holds_then; [|intros d; cbv zeta].
    { apply (holds_quietly _ _ (fun _ => False)); [|intros e []]. apply plain_lift. intros e Q.
      clear - Q. revert Q. generalize (@nil (str * str)) args. induction params as [|a ps IHp]; intros d [|b l] Q; cbn in Q; try discriminate; eauto. }
    apply holds_then; [apply holds_store|intros _].
    apply holds_then; [apply H, LX|intros _].
    apply holds_then; [apply holds_store|intros _]. apply IH. exact H.
  Qed.

  Lemma record_holds : forall key ctx l t, L ctx l -> holds (r_record key ctx l t).
  Proof.
    intros key ctx l t H s g K. unfold r_record.
    destruct (dget str_eqb (macros s) key) as [m|] eqn:D; [|split; [exact K|discriminate]].
    split; [|discriminate]. cbn. destruct (K _ _ D) as (tl & G & F). rewrite G.
    intros key' m'. cbn [macros set_macros]. rewrite ExecFacts.dget_dset. destruct (str_eqb key' key) eqn:E; intros Q.
    - injection Q as <-. exists (tl ++ [ctx]). rewrite ExecFacts.dget_dset, E. split; [reflexivity|]. cbn [m_body].
      apply Forall2_app; [exact F|]. repeat constructor. exact H.
    - destruct (K _ _ Q) as (l0 & G0 & F0). exists l0. rewrite ExecFacts.dget_dset, E. auto.
  Qed.

  Lemma instruction_holds : forall fuel ctx l pl t, L ctx l -> holds (r_instruction c said fuel ctx l pl t).
  Proof.
    induction fuel as [|fuel IH]; intros ctx l pl t H s g; cbn [r_instruction];
      destruct (macro_recording s) as [k|].
    1, 3: revert s g; apply holds_then; [apply record_holds; auto|intros; apply holds_ret].
    all: generalize (macros s) as ms, (substitute_with_dict t (defines s) 0) as t'; intros ms t'; revert s g.
    all: apply holds_then; [apply holds_store|intros _].
    all: apply holds_then; [apply holds_tok_at|intros t0]; cbv zeta.
    all: destruct (dget str_eqb ms _) as [m|].
    - apply (holds_quietly _ _ (fun _ => False)); [apply plain_praise|]. intros e [].
    - apply holds_then; [apply opcode_holds; auto|intros; apply holds_ret].
    - apply holds_then; [apply loop_holds; auto|intros; apply holds_ret].
    - apply holds_then; [apply opcode_holds; auto|intros; apply holds_ret].
  Qed.

  Lemma statements_holds : forall fuel rasm ctx ss, (forall x, In x ss -> L ctx (s_line x)) ->
    (forall f code, file_text (c_env c) f = Some code -> holds (rasm (Some f) code)) ->
    holds (r_statements c said fuel rasm ctx ss).
  Proof.
    intros fuel rasm ctx ss H A. induction ss as [|x ss IH]; cbn [r_statements]; [apply holds_ret|].
    intros s0 g0 K0. generalize (zlen (assembled s0)) as n. intros n. revert s0 g0 K0.
    change (holds (
        (let+ tokens := r_statement c said fuel rasm ctx x in
         let+ _ := (fun s' g' =>
            if log s'
            then print (log_line (statement_str ctx (s_line x) tokens) n (assembled s')) s' g'
            else Told s' g' [] (Fine tt)) in
         r_statements c said fuel rasm ctx ss))).
    apply holds_then.
    - assert (LX : L ctx (s_line x)) by (apply H; left; reflexivity).
      unfold r_statement. destruct (s_kind x).
      + apply instruction_holds; auto.
      + apply label_holds; auto.
      + apply directive_holds; auto.
    - intros t. apply holds_then; [|intros _; apply IH; intros; apply H; right; auto].
      intros s g K. destruct (log s); (split; [exact K|discriminate]).
  Qed.

  Hypothesis files : forall f text ss x, file_text (c_env c) f = Some text -> tokenize text = Ok ss ->
    In x ss -> L (Some f) (s_line x).

  Lemma assemble_holds : forall fuel ctx code,
    (forall ss x, tokenize code = Ok ss -> In x ss -> L ctx (s_line x)) ->
    holds (r_assemble c said fuel ctx code).
  Proof.
    assert (TL : holds (quietly message (assemble_tail c))).
    { apply (holds_quietly _ _ (fun _ => False)); [|intros e []]. unfold assemble_tail.
      apply plain_bind; [apply plain_get|intros s]. apply plain_bind; [|intros _].
      - destruct (0 <? _); [|apply plain_ret]. destruct (_ <? _); [|apply plain_ret].
        apply plain_bind; [|intros; apply plain_append]. apply plain_python. apply python_fill.
      - apply plain_modify. intros. unfold close_section.
        destruct (current_section _) as [[|]|]; try (split; reflexivity). destruct (dget _ _ _); split; reflexivity. }
    assert (TK : forall code s e m, to_out (r_tokenize code s m) <> Raised (AExc e) None).
    { intros code s e m. unfold r_tokenize. destruct (tokenize code); discriminate. }
    induction fuel as [|fuel IH]; intros ctx code H s g K; cbn [r_assemble]; unfold rthen at 1;
      unfold r_tokenize; destruct (tokenize code) as [ss|e] eqn:T; cbn [to_out to_st to_tags].
    2, 4: split; [exact K|]; intros e' t Q; injection Q as -> <-; exfalso; revert T; apply tokenize_python.
    all: match goal with |- good (Told (to_st ?r) _ _ _) => assert (G : good r) end.
    2, 4: destruct G as [G1 G2]; split; auto.
    all: revert s g K; apply holds_then; [|intros _; exact TL]; apply statements_holds; eauto.
    intros. apply (holds_quietly _ _ (fun _ => False)); [apply plain_praise|]. intros e [].
  Qed.
End Explained.
