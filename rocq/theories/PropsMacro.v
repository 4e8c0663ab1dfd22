(** C14: a macro call is the textual expansion of the macro. *)
From Coq Require Import Lia.
From Verif Require Import Py PyFacts Utils Tokenizer State Assembler SpecSubst SubstFacts SpecTok SpecExec Events ExecFacts
  SpecMacro MacroFacts Demo PropsExec.
Local Open Scope Z_scope.

(** A macro call that expands to opcode instructions does exactly what these do one
    after the other, given enough stack: same bytes, references, everything; the macro
    table is the same afterwards.  If one of them fails, the call fails with the same
    error and the same state but for the macro table. *)
Theorem C14_expansion : forall c s t out, macros_ignored c -> macro_recording s = None ->
  expands c (macros s) (defines s) [] t out ->
  exists depth, forall fuel asm l, (depth <= fuel)%nat ->
    let call := statement_assemble c fuel asm (Stmt KInstruction t l) s in
    let flat := run_opcodes c out s in
    snd call = snd flat /\ set_macros (fst call) (macros s) = fst flat /\
    (snd call = Ok tt -> fst call = fst flat /\ macros (fst call) = macros s).
Proof.
  intros c s t out IG RC EX.
  destruct (proj1 (expansion_core c IG (macros s) (defines s)) _ _ _ EX) as [n H].
  exists n. intros fuel asm l F call flat.
  specialize (H fuel l Fresh s (macros s) F).
  assert (X : outcome c (instruction_assemble c fuel l Fresh t (set_macros s (macros s))) s out (macros s)).
  { apply H; auto; [split; auto|discriminate]. }
  rewrite set_macros_self in X. unfold outcome in X.
  assert (K : set_macros (fst flat) (macros s) = fst flat).
  { destruct (run_macros c IG out s (macros s)) as (E & _). rewrite set_macros_self in E.
    unfold flat. rewrite E at 2. reflexivity. }
  unfold call. cbn [statement_assemble s_kind s_tokens s_line]. unfold flat in *.
  destruct (run_opcodes c out s) as [s1 [[]|e]]; cbn [fst snd] in *.
  - rewrite X. cbn [fst snd]. auto.
  - destruct X as [ms X]. rewrite X. cbn [fst snd]. split; auto. split; [|discriminate]. auto.
Qed.
Print Assumptions C14_expansion.

Lemma demo_macros : macros_ignored demo.
Proof.
  intros k f tokens s H. apply demo_handler in H.
  assert (K : forall (o : Z) d sg (pk : list (option Z) -> res bytes) s,
    let m := (let! v := parse_integer_or_label demo_p d sg in let! b := lift (pk [Some v]) in ret (Some (o :: b))) in
    (forall ms, m (set_macros s ms) = (set_macros (fst (m s)) ms, snd (m s))) /\
    defines (fst (m s)) = defines s /\ macro_recording (fst (m s)) = macro_recording s).
  { clear. intros o d sg pk s m. unfold m, parse_integer_or_label, m_parse_integer, bind, lift.
    split; [intros ms|]; change (labels (set_macros s ms)) with (labels s) ||idtac;
    destruct (parse_integer demo_p (labels s) (ld_label d) (ld_bits_size d) (sg || negb (ld_relative d =? 0))) as [[v|]|e];
      cbn [ret add_label_translation modify fst snd]; try (destruct (pk [Some v])); try (destruct (pk [Some 0])); repeat split. }
  destruct H as [H|[H|[H|[H|H]]]]; try discriminate H; injection H as ->.
  - unfold demo_ldi. destruct tokens as [|x [|t [|]]]; try (repeat split; reflexivity). apply K.
  - unfold demo_bra. destruct tokens as [|x [|t [|]]]; try (repeat split; reflexivity).
    exact (K 2 (LabelData t 1 8 (pc s + 2) 1 1 None None None) true pack_8s s).
  - repeat split.
  - repeat split.
Qed.

(** A macro using another one, a define and both parameters. *)
Definition c14_state : st :=
  demo_state [".define FIVE 5"; ".macro put v"; "ldi v+1"; ".endmacro";
              ".macro two a b"; "put a"; "nop"; "put b"; ".endmacro"]%string.
Example C14_example :
  macros_ignored demo /\ macro_recording c14_state = None /\
  expands demo (macros c14_state) (defines c14_state) [] [#"TWO"; #"FIVE"; #"x"]
    [[#"ldi"; #"5+1"]; [#"nop"]; [#"ldi"; #"x+1"]] /\
  assembled (fst (assemble demo 5 (lines ["TWO FIVE x"]%string) c14_state)) = [1; 6; 0; 234; 1; 0; 0].
Proof.
  split; [exact demo_macros|]. split; [vm_compute; reflexivity|]. split; [|vm_compute; reflexivity].
  assert (SB : forall d t u, map (subst_token d) t = u -> Forall2 (substituted d) t u).
  { intros d t u <-. induction t; constructor; auto. apply subst_token_substituted. }
  assert (PUT : forall a u, subst_token (defines c14_state) a = u ->
     map (subst_token [(#"v", u)]) [#"ldi"; #"v+1"] = [#"ldi"; u ++ #"+1"] ->
     subst_token (defines c14_state) (u ++ #"+1") = u ++ #"+1" ->
     expands demo (macros c14_state) (defines c14_state) [#"TWO"] [#"put"; a] [[#"ldi"; u ++ #"+1"]]).
  { intros a u A B C.
    eapply (ex_macro _ _ _ _ _ #"put" [u]).
    - apply SB. cbn [map]. rewrite A. f_equal; vm_compute; reflexivity.
    - vm_compute. reflexivity.
    - vm_compute. intros [H|[]]. discriminate.
    - cbn. lia.
    - change [[#"ldi"; u ++ #"+1"]] with ([[#"ldi"; u ++ #"+1"]] ++ []). eapply eb_cons.
      + apply SB. cbn [s_tokens]. exact B.
      + apply ex_op; [|vm_compute; reflexivity]. apply SB. cbn [map]. rewrite C. f_equal; vm_compute; reflexivity.
      + constructor. }
  eapply (ex_macro _ _ _ _ _ #"TWO" [#"5"; #"x"]).
  - apply SB. vm_compute. reflexivity.
  - vm_compute. reflexivity.
  - intros [].
  - cbn. lia.
  - change [[#"ldi"; #"5+1"]; [#"nop"]; [#"ldi"; #"x+1"]] with
      ([[#"ldi"; #"5" ++ #"+1"]] ++ [[#"nop"]] ++ [[#"ldi"; #"x" ++ #"+1"]] ++ []).
    eapply (eb_cons _ _ _ _ _ _ _ [#"put"; #"5"]); [apply SB; vm_compute; reflexivity| |].
    { apply PUT; vm_compute; reflexivity. }
    eapply (eb_cons _ _ _ _ _ _ _ [#"nop"]); [apply SB; vm_compute; reflexivity| |].
    { apply ex_op; [apply SB; vm_compute; reflexivity|vm_compute; reflexivity]. }
    eapply (eb_cons _ _ _ _ _ _ _ [#"put"; #"x"]); [apply SB; vm_compute; reflexivity| |].
    { apply PUT; vm_compute; reflexivity. }
    constructor.
Qed.

(** A macro that uses itself through an argument would expand to a finite program, but
    the call never ends: while the body is being assembled it holds the substituted
    tokens, so the inner call sees the wrong body. *)
Theorem C14_self_use_refuted : exists s,
  s = demo_state [".macro M a"; "a ldi"; ".endmacro"]%string /\
  (forall fuel asm, snd (statement_assemble demo fuel asm (Stmt KInstruction [#"M"; #"M"] 4) s) = Err (PExc RecursionError)) /\
  assembled (fst (assemble demo 5 (lines ["ldi ldi"]%string) s)) = [1; 0; 0].
Proof.
  exists (demo_state [".macro M a"; "a ldi"; ".endmacro"]%string). split; [reflexivity|]. split; [|vm_compute; reflexivity].
  assert (OK : op_key demo #"M" = #"M") by reflexivity.
  pose (body := fun t : str => [(#"M", MkMacro [#"a"] [Stmt KInstruction [t; #"ldi"] 2])]).
  (* inside the body, whatever the body holds now becomes M ldi again *)
  assert (STEP : forall fuel l s t x, substitute_with_dict [t; #"ldi"] [(#"a", x)] 0 = [#"M"; #"ldi"] ->
    (forall s, macro_recording s = None -> defines s = [] -> macros s = body #"M" ->
      snd (instruction_assemble demo fuel l (InMacro #"M" 0) [#"M"; #"ldi"] s) = Err (PExc RecursionError)) ->
    macro_recording s = None -> defines s = [] ->
    snd (macro_loop (instruction_assemble demo fuel l) #"M" [#"a"] [x] 1 0 (set_macros s (body t))) = Err (PExc RecursionError)).
  { intros fuel l s t x SB IH R D. cbn [macro_loop]. unfold bind at 1, get.
    change (macros (set_macros s (body t))) with (body t).
    replace (dget str_eqb (body t) #"M") with (Some (MkMacro [#"a"] [Stmt KInstruction [t; #"ldi"] 2])) by reflexivity.
    cbn [m_body nth_error s_tokens]. unfold bind at 1, lift. cbn [macro_dict].
    change (dset str_eqb [] #"a" x) with [(#"a", x)]. rewrite SB. unfold bind at 1. rewrite store_eq.
    change (stored (InMacro #"M" 0) [#"M"; #"ldi"] (body t)) with (body #"M").
    unfold bind at 1. specialize (IH (set_macros s (body #"M")) R D eq_refl).
    destruct (instruction_assemble demo fuel l (InMacro #"M" 0) [#"M"; #"ldi"] (set_macros s (body #"M"))) as [u r].
    cbn [snd] in IH. rewrite IH. reflexivity. }
  assert (G : forall fuel l s, macro_recording s = None -> defines s = [] -> macros s = body #"M" ->
    snd (instruction_assemble demo fuel l (InMacro #"M" 0) [#"M"; #"ldi"] s) = Err (PExc RecursionError)).
  { induction fuel as [|fuel IH]; intros l s R D M; rewrite <- (set_macros_self s), M;
      rewrite (instruction_step demo (defines s) _ _ _ _ #"M" [#"ldi"] s _) by (auto; rewrite D; vm_compute; reflexivity);
      rewrite OK;
      (replace (dget str_eqb (body #"M") #"M") with (Some (MkMacro [#"a"] [Stmt KInstruction [#"M"; #"ldi"] 2])) by reflexivity).
    - reflexivity.
    - cbn [m_args m_body length]. change (stored (InMacro #"M" 0) [#"M"; #"ldi"] (body #"M")) with (body #"M").
      apply STEP; auto. }
  intros fuel asm. cbn [statement_assemble s_kind s_tokens s_line].
  set (s := demo_state _).
  assert (R : macro_recording s = None) by (vm_compute; reflexivity).
  assert (D : defines s = []) by (vm_compute; reflexivity).
  assert (M : macros s = body #"a") by (vm_compute; reflexivity).
  clearbody s. rewrite <- (set_macros_self s), M.
  rewrite (instruction_step demo (defines s) _ _ _ _ #"M" [#"M"] s _) by (auto; rewrite D; vm_compute; reflexivity).
  rewrite OK.
  replace (dget str_eqb (body #"a") #"M") with (Some (MkMacro [#"a"] [Stmt KInstruction [#"a"; #"ldi"] 2])) by reflexivity.
  destruct fuel; [reflexivity|]. cbn [m_args m_body length stored]. apply STEP; auto.
Qed.
Print Assumptions C14_self_use_refuted.

(** After a failed call the macro body keeps the substituted tokens. *)
Theorem C14_failed_call_refuted : exists s text,
  s = demo_state [".macro put v"; "ldi v"; ".endmacro"]%string /\ text = lines ["put $12345"]%string /\
  snd (assemble demo 5 text s) <> Ok tt /\
  map (fun x => map s_tokens (m_body (snd x))) (macros s) = [[[#"ldi"; #"v"]]] /\
  map (fun x => map s_tokens (m_body (snd x))) (macros (fst (assemble demo 5 text s))) = [[[#"ldi"; #"$12345"]]].
Proof.
  eexists. eexists. split; [reflexivity|]. split; [reflexivity|].
  split; [vm_compute; discriminate|]. split; vm_compute; reflexivity.
Qed.

(** A directive in a macro body takes effect once, where the macro is defined, and is
    not part of the macro. *)
Theorem C14_directives_refuted : exists text,
  text = lines [".macro three"; "nop"; ".db 7"; ".endmacro"; "nop"; "three"; "three"]%string /\
  assembled (fst (assemble demo 5 text (init_st []))) = [7; 234; 234; 234].
Proof. eexists. split; [reflexivity|]. vm_compute. reflexivity. Qed.
Print Assumptions C14_failed_call_refuted.
Print Assumptions C14_directives_refuted.
