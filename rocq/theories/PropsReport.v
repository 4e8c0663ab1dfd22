(** C79 the texts of errors, C80 the log. *)
From Coq Require Import Lia.
From Verif Require Import Py PyFacts Utils Tokenizer State Assembler SpecUtils SpecTok SpecParse SpecSubst
  SubstFacts Events SpecExec ExecFacts Demo PropsExec TileFacts SpecCpu FitFacts Mos6502 FitMos Report SpecReport ReportFacts TellFacts ReprFacts.
Local Open Scope Z_scope.

(** ** Examples *)

Definition plain_said : option str -> Z -> list str -> asmexc -> str := fun _ _ _ e => message e.
Definition demo_told (l : list string) : told unit :=
  r_assemble demo plain_said 5 (Some #"main.s") (lines l) (init_st []) [].

Lemma demo_alone : plugins_keep macros_alone demo.
Proof. apply demo_plugins; intros; split; reflexivity. Qed.
Lemma demo_log_alone : plugins_keep log_alone demo.
Proof. apply demo_plugins; intros; reflexivity. Qed.
Lemma demo_appends : plugins_keep only_appends demo.
Proof. apply demo_plugins; intros; apply extends_refl. Qed.

(** ** C79 *)

(** The texts are about the run of assemble: the same final state, the same error. *)
Theorem C79_faithful : forall c said fuel ctx code s g, plugins_keep macros_alone c ->
  let r := r_assemble c said fuel ctx code s g in
  to_st r = fst (assemble c fuel code s) /\
  match to_out r with
  | Fine _ => snd (assemble c fuel code s) = Ok tt
  | Raised e _ => snd (assemble c fuel code s) = Err e
  end.
Proof.
  intros c said fuel ctx code s g A r. destruct (assemble_shows c said A fuel ctx code s g) as [H1 H2].
  split; [exact H1|]. fold r in H2. destruct (to_out r) as [[]|]; symmetry; exact H2.
Qed.

(** Every failure of a fresh run says what went wrong and at which line of which file. *)
Theorem C79_sourced : forall c said fuel ctx code s e t, plugins_keep macros_alone c -> macros s = [] ->
  to_out (r_assemble c said fuel ctx code s []) = Raised (AExc e) t ->
  exists text, t = Some text /\ explained c said (source_line c ctx code) e text.
Proof.
  intros c said fuel ctx code s e t A M H.
  refine (proj2 (assemble_holds c said (source_line c ctx code) A _ fuel ctx code _ s [] _) e t H).
  - intros. eapply sl_file; eauto.
  - intros. eapply sl_main; eauto.
  - intros key m. rewrite M. discriminate.
Qed.

(** An instruction that fails is named with its file, its line and its tokens. *)
Theorem C79_instruction : forall c said fuel ctx code pre x post s g s1 s2 e t0 ops,
  plugins_keep macros_alone c -> tokenize code = Ok (pre ++ x :: post) -> s_kind x = KInstruction ->
  exec c fuel pre s = (s1, Ok tt) -> macro_recording s1 = None -> reads s1 (s_tokens x) (t0 :: ops) ->
  dget str_eqb (macros s1) (op_key c t0) = None -> exec c fuel [x] s1 = (s2, Err (AExc e)) ->
  exists why,
    (why = message e \/
     exists f, dget str_eqb (c_instructions c) (op_key c t0) = Some (OFun f) /\
       snd (f (t0 :: ops) s1) = Err (AExc e) /\ why = said ctx (s_line x) (t0 :: ops) e) /\
    to_out (r_assemble c said fuel ctx code s g) =
      Raised (AExc e) (Some (why ++ #" " ++ place_text ctx (s_line x) (t0 :: ops))).
Proof.
  intros c said fuel ctx code pre [k tk l] post s g s1 s2 e t0 ops A T K E MR RD MC F.
  cbn [s_kind s_tokens s_line] in *. subst k.
  destruct (program_then c said A fuel ctx code pre _ post s g s1 T E) as (g1 & _ & P).
  destruct (statement_raises c said A fuel ctx _ s1 g1 _ _ F) as [t R]. rewrite (P _ _ R). clear P F.
  assert (Q : to_out (r_opcode c said (op_key c t0) ctx l (t0 :: ops) s1 g1) = Raised (AExc e) t).
  { revert R. unfold r_statement. cbn [s_kind s_tokens s_line].
    assert (X : forall A (r : R A) (a : list str), to_out ((let+ _ := r in rret a) s1 g1) = Raised (AExc e) t ->
                to_out (r s1 g1) = Raised (AExc e) t).
    { intros B r a. unfold rthen. cbv zeta. destruct (to_out (r s1 g1)); [discriminate|intros H; injection H as -> ->; reflexivity]. }
    destruct fuel; cbn [r_instruction]; rewrite MR; cbv zeta; unfold substitute_with_dict; cbn [firstn skipn app];
      rewrite (reads_map _ _ _ RD); unfold rthen at 1, quietly at 1; cbn [store_tokens]; unfold ret;
      cbn [to_out to_st to_tags]; unfold rthen at 1, quietly at 1; cbn [tok_at nth_error]; unfold ret;
      cbn [to_out to_st to_tags]; fold (op_key c t0); rewrite MC; apply X. }
  clear R. unfold r_opcode in Q. rewrite place_text_eq in Q.
  assert (LOC : forall e', message_at e' (place_text ctx l (t0 :: ops)) = message e' ++ #" " ++ place_text ctx l (t0 :: ops)) by reflexivity.
  assert (AP : forall b s g, to_out (quietly message (append_assembled_bytes b) s g) <> Raised (AExc e) t) by discriminate.
  destruct (dget str_eqb (c_instructions c) (op_key c t0)) as [[b|f]|] eqn:D.
  - destruct (negb _); [|destruct (AP _ _ _ Q)]. injection Q as <- <-. eexists. split; [left; reflexivity|]. rewrite <- LOC. reflexivity.
  - unfold rthen, r_call_handler in Q. rewrite place_text_eq in Q.
    destruct (f (t0 :: ops) s1) as [s' [[b|]|[e'|e']]] eqn:FE; cbn [to_out] in Q.
    + discriminate Q.
    + injection Q as <- <-. eexists. split; [left; reflexivity|]. reflexivity.
    + injection Q as <- <-. exists (said ctx l (t0 :: ops) e'). split; [|reflexivity]. right. exists f. rewrite FE. auto.
    + injection Q as <- <-. eexists. split; [left; reflexivity|]. reflexivity.
  - injection Q as <- <-. eexists. split; [left; reflexivity|]. reflexivity.
Qed.

(** A directive that fails is named too, unless the error is about a number, a label or a
    move of the origin. *)
Theorem C79_directive : forall c said fuel ctx code pre x post s g s1 s2 e t0 ops ops' d,
  plugins_keep macros_alone c -> tokenize code = Ok (pre ++ x :: post) -> s_kind x = KDirective ->
  exec c fuel pre s = (s1, Ok tt) -> s_tokens x = t0 :: ops -> reads s1 ops ops' -> names c t0 d ->
  d <> D_include -> (forall f, d <> D_custom f) -> exec c fuel [x] s1 = (s2, Err (AExc e)) ->
  let whole := placeless e -> e = AddressOverlap /\ (d = D_goto \/ d = D_upto) in
  (whole -> to_out (r_assemble c said fuel ctx code s g) =
      Raised (AExc e) (Some (message e ++ #" " ++ place_text ctx (s_line x) (t0 :: ops')))) /\
  (~ whole -> to_out (r_assemble c said fuel ctx code s g) = Raised (AExc e) (Some (message e))).
Proof.
  intros c said fuel ctx code pre [k tk l] post s g s1 s2 e t0 ops ops' d A T K E TK RD N NI NC F whole.
  cbn [s_kind s_tokens s_line] in *. subst k tk.
  destruct (program_then c said A fuel ctx code pre _ post s g s1 T E) as (g1 & _ & P).
  destruct (statement_raises c said A fuel ctx _ s1 g1 _ _ F) as [t R]. rewrite (P _ _ R). clear P F.
  unfold r_statement in R. cbn [s_kind s_tokens s_line] in R. rewrite r_directive_eq, (reads_map _ _ _ RD) in R.
  cbv zeta in R. unfold names in N. rewrite N in R. unfold rthen at 1 in R.
  assert (Q : to_out (r_run_directive c said (r_asm c said fuel) d ctx l (t0 :: ops') s1 g1) = Raised (AExc e) t).
  { destruct (to_out (r_run_directive c said (r_asm c said fuel) d ctx l (t0 :: ops') s1 g1)); [discriminate R|injection R as -> ->; reflexivity]. }
  clear R.
  assert (W : t = Some (directive_says d (place_text ctx l (t0 :: ops')) e) /\ fair d e).
  { assert (PD := plain_directive c (fun _ => ret tt) d (t0 :: ops')).
    assert (X : forall m : M unit, plain (fair d) m -> to_out (quietly (directive_says d (statement_str ctx l (t0 :: ops'))) m s1 g1) = Raised (AExc e) t ->
       t = Some (directive_says d (place_text ctx l (t0 :: ops')) e) /\ fair d e).
    { intros m PM. unfold quietly. destruct (PM s1) as [_ PE]. destruct (m s1) as [s' [u|[e'|e']]]; try discriminate.
      cbn [to_out snd] in *. intros H. injection H as -> <-. rewrite place_text_eq. auto. }
    destruct d; cbn [r_run_directive] in Q; try (exact (X _ PD Q)); try congruence.
    - unfold rthen, quietly, macro_start, bind, get in Q. destruct (macro_recording s1).
      + injection Q as <- <-. rewrite place_text_eq. split; [reflexivity|left; reflexivity].
      + cbn [skipn] in Q. destruct ops'; discriminate Q.
    - unfold quietly in Q. cbn [run_directive] in Q. unfold directive_log in Q. destruct ops' as [|o ops2]; [discriminate Q|].
      destruct (str_eqb _ _); [discriminate Q|]. destruct (str_eqb _ _); discriminate Q. }
  destruct W as [-> FR]. set (w := place_text ctx l (t0 :: ops')) in *. clearbody w.
  assert (LOC : forall w, message_at e w = message e ++ #" " ++ w) by reflexivity.
  split; intros H.
  - destruct FR as [FR|[FR1 FR2]]; [rewrite FR, LOC; reflexivity|]. destruct (H FR1) as [-> HD].
    specialize (FR2 w). destruct HD as [->| ->]; reflexivity.
  - destruct FR as [FR|[FR1 FR2]]; [|rewrite FR2; reflexivity]. exfalso. apply H. intros PL. specialize (FR [" "%char]).
    destruct e; try destruct PL; cbn [directive_says] in FR.
    + exfalso. revert FR. unfold message_at. intros FR. apply (f_equal (@length _)) in FR. rewrite !app_length in FR. cbn [length] in FR. lia.
    + exfalso. revert FR. unfold message_at. intros FR. apply (f_equal (@length _)) in FR. rewrite !app_length in FR. cbn [length] in FR. lia.
    + exfalso. revert FR. unfold message_at. intros FR. apply (f_equal (@length _)) in FR. rewrite !app_length in FR. cbn [length] in FR. lia.
    + split; [reflexivity|]. assert (NE : message AddressOverlap <> message_at AddressOverlap [" "%char]).
      { unfold message_at. intros Z. apply (f_equal (@length _)) in Z. rewrite !app_length in Z. cbn [length] in Z. lia. }
      destruct d; try (exfalso; exact (NE FR)); auto.
Qed.

(** A label that is rejected is named with its file and its line. *)
Theorem C79_label : forall c said fuel ctx code pre x post s g s1 s2 e,
  plugins_keep macros_alone c -> tokenize code = Ok (pre ++ x :: post) -> s_kind x = KLabel ->
  exec c fuel pre s = (s1, Ok tt) -> exec c fuel [x] s1 = (s2, Err (AExc e)) -> ~ placeless e ->
  to_out (r_assemble c said fuel ctx code s g) =
    Raised (AExc e) (Some (message e ++ #" " ++ place_text ctx (s_line x) (s_tokens x))).
Proof.
  intros c said fuel ctx code pre [k tk l] post s g s1 s2 e A T K E F NP. cbn [s_kind s_tokens s_line] in *. subst k.
  destruct (program_then c said A fuel ctx code pre _ post s g s1 T E) as (g1 & _ & P).
  destruct (statement_raises c said A fuel ctx _ s1 g1 _ _ F) as [t R]. rewrite (P _ _ R). clear P F.
  unfold r_statement in R. cbn [s_kind s_tokens s_line] in R.
  assert (Q : to_out (quietly (label_says (statement_str ctx l tk)) (label_assemble c tk) s1 g1) = Raised (AExc e) t).
  { unfold r_label, rthen in R. destruct (to_out (quietly _ _ s1 g1)); [discriminate R|injection R as -> ->; reflexivity]. }
  clear R. unfold quietly in Q. rewrite place_text_eq in Q.
  assert (PL : plain (fun e => (forall w, label_says w e = message_at e w) \/ placeless e) (label_assemble c tk)).
  { assert (AN : forall e, about_number e -> (forall w, label_says w e = message_at e w) \/ placeless e).
    { intros e' H. right. destruct e'; try destruct H; try (destruct l0; [destruct H|]); exact I. }
    unfold label_assemble. apply plain_bind; [apply plain_get|]. intros s0.
    destruct (macro_recording s0); [apply plain_araise; left; reflexivity|].
    apply plain_bind; [apply plain_tok_at|]. intros key.
    destruct (dmem _ _ _); [apply plain_araise; left; reflexivity|].
    destruct (negb _); [apply plain_araise; left; reflexivity|].
    apply plain_bind; [apply plain_parse, AN|]. intros [v|]; [apply plain_araise; left; reflexivity|].
    apply plain_modify. split; reflexivity. }
  destruct (PL s1) as [_ PE]. destruct (label_assemble c tk s1) as [s' [u|[e'|e']]]; try discriminate Q.
  cbn [to_out snd] in *. injection Q as -> <-. destruct (PE e eq_refl) as [H|H]; [rewrite H; reflexivity|contradiction].
Qed.

(** An error inside an included file is told as when that file is assembled under its own
    name. *)
Theorem C79_include : forall c said fuel ctx code pre x post s g s1 s2 e t0 op op' name body,
  plugins_keep macros_alone c -> tokenize code = Ok (pre ++ x :: post) -> s_kind x = KDirective ->
  exec c (S fuel) pre s = (s1, Ok tt) -> s_tokens x = [t0; op] -> reads s1 [op] [op'] -> names c t0 D_include ->
  string_operand op' name -> file_text (c_env c) name = Some body -> assemble c fuel body s1 = (s2, Err e) ->
  exists g1, to_out (r_assemble c said (S fuel) ctx code s g) =
             to_out (r_assemble c said fuel (Some name) body s1 g1) /\
    forall L, known_bodies L s g -> (forall y, In y pre -> L ctx (s_line y)) ->
      (forall f text ss y, file_text (c_env c) f = Some text -> tokenize text = Ok ss -> In y ss ->
         L (Some f) (s_line y)) -> known_bodies L s1 g1.
Proof.
  intros c said fuel ctx code pre [k tk l] post s g s1 s2 e t0 op op' name body A T K E TK RD N SO FT F.
  cbn [s_kind s_tokens s_line] in *. subst k tk.
  destruct (program_then c said A (S fuel) ctx code pre _ post s g s1 T E) as (g1 & KB & P).
  exists g1. split; [|exact KB].
  destruct (assemble_shows c said A fuel (Some name) body s1 g1) as [_ H]. rewrite F in H. cbn [snd] in H.
  destruct (to_out (r_assemble c said fuel (Some name) body s1 g1)) as [|e' t] eqn:O; [discriminate|]. injection H as ->.
  apply P. unfold r_statement. cbn [s_kind s_tokens s_line]. rewrite r_directive_eq, (reads_map _ _ _ RD).
  cbv zeta. unfold names in N. rewrite N. cbn [r_run_directive]. unfold r_include.
  change (negb (len_in [t0; op'] [2%nat])) with false. cbv iota. unfold tok_at at 1. cbn [nth_error].
  unfold rthen, quietly, bind, lift, ret. rewrite (stringify_operand _ _ SO). unfold open_file. rewrite FT. unfold ret.
  cbn [to_out to_st to_tags fst snd TellFacts.r_asm]. rewrite O. reflexivity.
Qed.

(** An error inside a macro is told with the line of the definition: the lines L of the
    program before the call are enough. *)
Theorem C79_macro : forall c said fuel ctx code pre x post s g s1 s2 e t0 ops m (L : option str -> Z -> Prop),
  plugins_keep macros_alone c -> tokenize code = Ok (pre ++ x :: post) -> s_kind x = KInstruction ->
  exec c fuel pre s = (s1, Ok tt) -> macro_recording s1 = None -> reads s1 (s_tokens x) (t0 :: ops) ->
  dget str_eqb (macros s1) (op_key c t0) = Some m -> exec c fuel [x] s1 = (s2, Err (AExc e)) ->
  known_bodies L s g -> (forall y, In y pre -> L ctx (s_line y)) ->
  (forall f text ss y, file_text (c_env c) f = Some text -> tokenize text = Ok ss -> In y ss -> L (Some f) (s_line y)) ->
  exists text, to_out (r_assemble c said fuel ctx code s g) = Raised (AExc e) (Some text) /\
    explained c said L e text.
Proof.
  intros c said fuel ctx code pre [k tk l] post s g s1 s2 e t0 ops m L A T K E MR RD MC F KB LY FL.
  cbn [s_kind s_tokens s_line] in *. subst k.
  destruct (program_then c said A fuel ctx code pre _ post s g s1 T E) as (g1 & KB1 & P).
  destruct (statement_raises c said A fuel ctx _ s1 g1 _ _ F) as [t R]. rewrite (P _ _ R). clear P F.
  specialize (KB1 L KB LY FL).
  revert R. unfold r_statement. cbn [s_kind s_tokens s_line].
  assert (H : holds c said L (match fuel with O => quietly message (praise RecursionError) | S f =>
     let+ _ := r_macro_loop (r_instruction c said f) (op_key c t0) (m_args m) ops (length (m_body m)) 0 in rret (t0 :: ops) end)).
  { destruct fuel as [|f].
    - apply (holds_quietly _ _ _ _ _ (fun _ => False)); [apply plain_praise|]. intros e' [].
    - apply holds_then; [|intros; apply holds_ret]. apply loop_holds. intros. apply instruction_holds; auto. }
  assert (X : forall r : R (list str), holds c said L r ->
    to_out (let r' := r s1 g1 in Told (to_st r') (to_tags r') (to_lines r') (to_out r')) = Raised (AExc e) t ->
    exists text, Raised (AExc e) t = @Raised unit (AExc e) (Some text) /\ explained c said L e text).
  { intros r HR Q. cbn [to_out] in Q. destruct (HR s1 g1 KB1) as [_ HE]. destruct (HE e t Q) as (tx & -> & EX). eauto. }
  destruct fuel; cbn [r_instruction]; rewrite MR; cbv zeta; unfold substitute_with_dict; cbn [firstn skipn app];
    rewrite (reads_map _ _ _ RD); unfold rthen at 1, quietly at 1; cbn [store_tokens]; unfold ret;
    cbn [to_out to_st to_tags]; unfold rthen at 1, quietly at 1; cbn [tok_at nth_error]; unfold ret;
    cbn [to_out to_st to_tags]; fold (op_key c t0); rewrite MC; intros Q; exact (X _ H Q).
Qed.

(** A misplaced colon is reported with its line. *)
Theorem C79_colon : forall c said fuel ctx code e s g, tokenize code = Err e ->
  exists pre rest, code = pre ++ ":"%char :: rest /\ (exists ss, tokenize pre = Ok ss) /\
    (exists e', tokenize (pre ++ [":"%char]) = Err e') /\
    to_out (r_assemble c said fuel ctx code s g) =
      Raised e (Some (#"invalid label at line " ++ str_of_int (1 + newlines pre))).
Proof.
  intros c said fuel ctx code e s g H. destruct (colon_line code e H) as (pre & rest & E & T1 & T2 & F).
  exists pre, rest. split; [exact E|]. split; [exact T1|]. split; [exact T2|].
  rewrite r_assemble_eq. unfold rthen, r_tokenize. rewrite H. cbn [to_out]. rewrite F. reflexivity.
Qed.

(** Some errors do not say where: the number of a data directive, a label of a directive,
    an overlapping origin; and a misplaced colon does not say in which file. *)
Lemma demo_range_text : to_out (demo_told ["nop"; ".db 256"]%string) =
  Raised (AExc (NotInBitRange 256 8 None)) (Some #"value 256 is not in the 8 bit range").
Proof. vm_compute. reflexivity. Qed.
Lemma no_file_name : forall a b, #"value 256 is not in the 8 bit range" <> a ++ #"main.s" ++ b.
Proof.
  intros a b E. assert (I : In "m"%char (a ++ #"main.s" ++ b)) by (apply in_or_app; right; left; reflexivity).
  rewrite <- E in I. revert I. clear E. intros I.
  assert (F : forallb (fun x => negb (Ascii.eqb x "m")) #"value 256 is not in the 8 bit range" = true) by reflexivity.
  rewrite forallb_forall in F. specialize (F _ I). discriminate F.
Qed.
Theorem C79_placeless_refuted :
  ~ (forall prog e t, to_out (demo_told prog) = Raised e (Some t) -> exists a b, t = a ++ #"main.s" ++ b) /\
  to_out (demo_told ["nop"; ".fill 1+b"]%string) = Raised (AExc (UnknownLabel #"b")) (Some (message (UnknownLabel #"b"))) /\
  to_out (demo_told [".org 5 1"]%string) = Raised (AExc AddressOverlap) (Some #"address overlap") /\
  to_out (demo_told ["nop"; "nop x: nop"]%string) =
    Raised (PExc TokenizerInvalidLabel) (Some #"invalid label at line 2").
Proof.
  split; [|split; [|split]; vm_compute; reflexivity].
  intros H. destruct (H _ _ _ demo_range_text) as (a & b & E). exact (no_file_name a b E).
Qed.

(** The place can be read back from the text, unless names of files have colons: no two
    places have the same text. *)
Theorem C79_unambiguous : forall f f' line line' tokens tokens',
  (forall n, f = Some n -> ~ In ":"%char n) -> (forall n, f' = Some n -> ~ In ":"%char n) ->
  place_text f line tokens = place_text f' line' tokens' -> f = f' /\ line = line' /\ tokens = tokens'.
Proof.
  intros f f' line line' tokens tokens' F F' E.
  rewrite <- (app_nil_r (place_text f line tokens)), <- (app_nil_r (place_text f' line' tokens')) in E.
  apply place_text_inj in E; tauto.
Qed.
(** It is one line of visible characters, whatever the tokens hold. *)
Theorem C79_one_line : forall f line tokens, (forall n, f = Some n -> Forall visible n) ->
  Forall visible (place_text f line tokens).
Proof. exact place_visible. Qed.
(** Quotes, backslashes, line breaks and commas in tokens; a colon in the name of a file. *)
Example C79_unambiguous_example :
  place_text (Some #"a.s") 12 [[squote; "a"%char; nl]; [backslash]] =
    #"at line 12 of a.s: [" ++ dquote :: #"'a\n" ++ dquote :: #", '\\']" /\
  place_text None 1 [#"a', 'b"] <> place_text None 1 [#"a"; #"b"] /\
  (~ In ":"%char #"a.s" /\ Forall visible #"a.s") /\
  place_text (Some #"x") 1 [] = #"at line 1 of x: []" /\
  place_text (Some #"x: ['a'] of y") 1 [#"b"] = #"at line 1 of x: ['a'] of y: ['b']".
Proof.
  split; [vm_compute; reflexivity|]. split; [vm_compute; discriminate|].
  split; [|split; vm_compute; reflexivity].
  split; [intros H; repeat (destruct H as [H|H]; [discriminate H|]); exact H|repeat constructor; vm_compute; discriminate].
Qed.

Example C79_example :
  to_out (demo_told ["nop"; "ldi 1, 2"]%string) =
    Raised (AExc InvalidInstruction) (Some #"invalid instruction at line 2 of main.s: ['ldi', '1', '2']") /\
  to_out (demo_told [".define x 70000"; ""; " ldi x"]%string) =
    Raised (AExc (NotInBitRange 70000 16 None)) (Some #"value 70000 is not in the 16 bit range at line 3 of main.s: ['ldi', '70000']") /\
  to_out (demo_told ["a: nop"; "a: nop"]%string) =
    Raised (AExc LabelAlreadyDefined) (Some #"label already defined at line 2 of main.s: ['a']") /\
  to_out (demo_told [".goto 5"; ".goto 4"]%string) =
    Raised (AExc AddressOverlap) (Some #"address overlap at line 2 of main.s: ['.goto', '4']") /\
  to_out (demo_told [".macro m n"; " nop"; " foo n"; ".endmacro"; ""; "m 7"]%string) =
    Raised (AExc UnknownInstruction) (Some #"unknown instruction at line 3 of main.s: ['foo', '7']") /\
  to_out (demo_told ["nop"; "nop x: nop"]%string) =
    Raised (PExc TokenizerInvalidLabel) (Some #"invalid label at line 2").
Proof. repeat split; vm_compute; reflexivity. Qed.

(** A file that fails, included from the third line. *)
Definition faulty : cfg :=
  mk_cfg demo_p (Env (fun n => if str_eqb n #"bad.s" then Some (lines ["nop"; "what 1"]%string) else None)
    (fun _ => None) (fun _ => None) (fun _ => None) (fun _ => None)) demo_ops [] [] [].
Example C79_include_example :
  to_out (r_assemble faulty plain_said 5 (Some #"main.s") (lines ["nop"; ""; ".include bad.s"]%string) (init_st []) []) =
    Raised (AExc UnknownInstruction) (Some #"unknown instruction at line 2 of bad.s: ['what', '1']") /\
  string_operand #"bad.s" #"bad.s" /\ file_text (c_env faulty) #"bad.s" = Some (lines ["nop"; "what 1"]%string).
Proof. split; [vm_compute; reflexivity|]. split; [constructor; discriminate|reflexivity]. Qed.

(** The hypotheses hold for a macro called on the sixth line. *)
Example C79_hypotheses :
  let code := lines [".macro m n"; " nop"; " foo n"; ".endmacro"; ""; "m 7"]%string in
  exists pre x, tokenize code = Ok (pre ++ [x]) /\ s_kind x = KInstruction /\ s_line x = 6 /\
    (forall y, In y pre -> s_line y < 6) /\
    exists s1 m, exec demo 5 pre (init_st []) = (s1, Ok tt) /\ macro_recording s1 = None /\
      reads s1 (s_tokens x) [#"m"; #"7"] /\ dget str_eqb (macros s1) (op_key demo #"m") = Some m /\
      snd (exec demo 5 [x] s1) = Err (AExc UnknownInstruction).
Proof.
  eexists [_; _; _; _], _. split; [vm_compute; reflexivity|]. split; [reflexivity|]. split; [reflexivity|]. split.
  - intros y H. repeat (destruct H as [<-|H]; [reflexivity|]). contradiction.
  - eexists _, _. split; [vm_compute; reflexivity|]. split; [reflexivity|].
    split; [|split; [vm_compute; reflexivity|vm_compute; reflexivity]].
    match goal with |- reads ?s _ _ => exact (reads_self s [#"m"; #"7"]) end.
Qed.

(** Processors and consoles. *)
Lemma processors_keep : forall c, fits c ->
  plugins_keep macros_alone c /\ plugins_keep log_alone c /\ plugins_keep only_appends c.
Proof.
  intros c F. split; [|split]; apply fits_keep_fields; auto; intros; try reflexivity; try (split; reflexivity).
  - apply extends_refl.
  - eexists. reflexivity.
Qed.

(** For the processors and consoles: every failure of a program is explained, whatever
    their handlers say. *)
Theorem C79_processors : forall c said fuel ctx code defs e t, fits c ->
  to_out (r_assemble c said fuel ctx code (init_st defs) []) = Raised (AExc e) t ->
  exists text, t = Some text /\ explained c said (source_line c ctx code) e text.
Proof.
  intros c said fuel ctx code bits e t F. apply C79_sourced; [|reflexivity]. apply processors_keep. exact F.
Qed.

Example C79_processors_example : forall e,
  fits (mos6502 e) /\
  to_out (r_assemble (mos6502 e) (fun _ _ _ _ => #"invalid 6502 mode") 5 (Some #"game.s") (lines ["start: LDA #1"; " STA"]%string) (init_st []) []) =
    Raised (AExc InvalidMode) (Some #"invalid 6502 mode at line 2 of game.s: ['STA']").
Proof. intros e. split; [apply mos_fits|reflexivity]. Qed.

Print Assumptions C79_processors.
Print Assumptions C79_faithful.
Print Assumptions C79_sourced.
Print Assumptions C79_instruction.
Print Assumptions C79_directive.
Print Assumptions C79_label.
Print Assumptions C79_include.
Print Assumptions C79_macro.
Print Assumptions C79_colon.
Print Assumptions C79_placeless_refuted.

(** ** C80 *)

(** Once the log is on, and up to the next .log or .include, there is one line for each
    statement, in order: its place, the bytes it added and their offset in the output.
    What is added after the last statement is padding. *)
Theorem C80_log : forall c said fuel ctx code pre ss s g s0, plugins_keep log_alone c ->
  plugins_keep macros_alone c -> plugins_keep only_appends c ->
  tokenize code = Ok (pre ++ ss) -> exec c fuel pre s = (s0, Ok tt) -> log s0 = true ->
  (forall l t0 ops d, In (Stmt KDirective (t0 :: ops) l) ss -> names c t0 d -> ~ noisy d (length ops)) ->
  let r := r_assemble c said fuel ctx code s g in
  to_out r = Fine tt -> Forall is_byte (assembled (to_st r)) ->
  exists s1 before ls, to_lines r = before ++ ls /\ logged c fuel ctx s0 ss s1 ls /\
    exists n, assembled (to_st r) = assembled s1 ++ repeat (fill_value (c_p c)) n.
Proof.
  intros c said fuel ctx code pre ss s0 g0 s LA MA OA T EP LG NF r. subst r. rewrite r_assemble_eq.
  destruct (statements_split c said MA fuel ctx pre s0 g0 s EP) as (g & before & SP).
  specialize (SP ss). cbv zeta in SP.
  pose proof (statements_logged c said LA MA OA fuel ctx ss s g LG) as H.
  set (b := r_statements c said fuel (r_asm c said fuel) ctx ss) in *.
  assert (EQ : forall (k : list stmt -> R unit), rthen (r_tokenize code) k s0 g0 =
     Told (to_st (k (pre ++ ss) s0 g0)) (to_tags (k (pre ++ ss) s0 g0)) (to_lines (k (pre ++ ss) s0 g0)) (to_out (k (pre ++ ss) s0 g0))).
  { intros k. unfold rthen, r_tokenize. rewrite T. reflexivity. }
  rewrite EQ. cbn [to_st to_tags to_lines to_out]. clear EQ. unfold rthen. rewrite SP. cbn [to_st to_tags to_lines to_out].
  destruct (to_out (b s g)) as [u|] eqn:O; [|discriminate]. destruct u.
  cbn [to_st to_tags to_lines to_out]. intros OT BT.
  set (s1 := to_st (b s g)) in *. set (g1 := to_tags (b s g)) in *.
  assert (TL : exists n, assembled (to_st (quietly message (assemble_tail c) s1 g1)) = assembled s1 ++ repeat (fill_value (c_p c)) n).
  { unfold quietly, assemble_tail, bind, get in OT |- *.
    assert (CS : forall u, assembled (close_section u) = assembled u) by (intros u; rewrite close_section_eq; reflexivity).
    destruct (0 <? current_org_end s1).
    - destruct (current_org s1 + org_counter s1 <? current_org_end s1).
      + unfold lift in OT |- *. destruct (fill_blob _ _) as [bl|[ex|ex]] eqn:FB; [|discriminate OT..].
        cbn [append_assembled_bytes modify to_st]. rewrite CS. unfold fill_blob in FB.
        destruct (_ <=? 0); [injection FB as <-; exists 0%nat; reflexivity|].
        destruct (_ && _); [|discriminate]. injection FB as <-. eexists. reflexivity.
      + cbn [ret modify to_st]. rewrite CS. exists 0%nat. rewrite app_nil_r. reflexivity.
    - cbn [ret modify to_st]. rewrite CS. exists 0%nat. rewrite app_nil_r. reflexivity. }
  destruct (tacit_tail c s1 g1) as [_ TT]. rewrite TT, app_nil_r.
  exists s1, before, (to_lines (b s g)). split; [reflexivity|]. split; [|exact TL].
  apply H; auto.
  - intros x I l t0 ops d -> N. eapply NF; eauto.
  - destruct TL as [n TL]. rewrite TL in BT. apply Forall_app in BT. tauto.
Qed.

(** The bytes in the lines are the bytes the statements put out, all of them, in order. *)
Theorem C80_complete : forall c fuel ctx s ss s1 ls, logged c fuel ctx s ss s1 ls ->
  exec c fuel ss s = (s1, Ok tt) /\
  exists bss, assembled s1 = assembled s ++ concat bss /\ length bss = length ss /\ length ls = length ss /\
    forall i x bs line, nth_error ss i = Some x -> nth_error bss i = Some bs -> nth_error ls i = Some line ->
      exists t, log_entry (place_text ctx (s_line x) t) (zlen (assembled s) + zlen (concat (firstn i bss))) bs line.
Proof.
  intros c fuel ctx s ss s1 ls H. induction H as [s|s x xs s1 s2 t bs line ls E A SH LE LG [IE (bss & B1 & B2 & B3 & B4)]].
  - split; [reflexivity|]. exists []. split; [symmetry; apply app_nil_r|]. split; [reflexivity|]. split; [reflexivity|].
    intros [|i]; discriminate.
  - split.
    + unfold exec in *. cbn [iter] in *. unfold bind in *. destruct (statement_assemble _ _ _ x s) as [s' [u|]]; [|discriminate].
      unfold ret in E. injection E as ->. exact IE.
    + exists (bs :: bss). split; [rewrite B1, A, <- app_assoc; reflexivity|]. split; [cbn; lia|]. split; [cbn; lia|].
      intros [|i] x' bs' line' H1 H2 H3; cbn [nth_error] in *.
      * injection H1 as <-. injection H2 as <-. injection H3 as <-. exists t. cbn. rewrite Z.add_0_r. exact LE.
      * destruct (B4 i x' bs' line' H1 H2 H3) as [t' LE']. exists t'. cbn [firstn concat].
        replace (zlen (assembled s) + zlen (bs ++ concat (firstn i bss))) with (zlen (assembled s1) + zlen (concat (firstn i bss))); [exact LE'|].
        rewrite A. unfold zlen. rewrite !app_length. lia.
Qed.

(** Without .log nothing is printed. *)
Theorem C80_silent : forall c said fuel ctx code s g, plugins_keep log_alone c -> log s = false ->
  program_free c sets_log code -> to_lines (r_assemble c said fuel ctx code s g) = [].
Proof. intros c said fuel ctx code s g A L [F1 F2]. apply (steady_assemble c said A F2 fuel ctx code F1 s g). exact L. Qed.

(** A line of the log tells its statement and its bytes, and the offset if there are any. *)
Theorem C80_readable : forall f f' l l' t t' n n' bs bs' line,
  (forall m, f = Some m -> ~ In ":"%char m) -> (forall m, f' = Some m -> ~ In ":"%char m) ->
  log_entry (place_text f l t) n bs line -> log_entry (place_text f' l' t') n' bs' line ->
  f = f' /\ l = l' /\ t = t' /\ bs = bs' /\ (bs <> [] -> n = n').
Proof. exact log_entry_inj. Qed.
Example C80_readable_example :
  log_entry (place_text (Some #"a.s") 3 [#"ldi"; #"$102"]) 1 [1; 2; 1]
    #"assembled at line 3 of a.s: ['ldi', '$102'] -> (0x01,0x02,0x01) at 0x1".
Proof.
  apply (le_some (place_text (Some #"a.s") 3 [#"ldi"; #"$102"]) 1 [1; 2; 1] [#"0x01"; #"0x02"; #"0x01"] #"1"); [discriminate| |].
  - assert (Z0 : numeral 16 #"0" 0) by (apply (num_one 16 "0" 0); [split; [lia|left; reflexivity]|lia]).
    assert (N1 : numeral 16 #"01" 1) by (apply (num_more 16 #"0" 0 "1" 1 Z0); [split; [lia|left; reflexivity]|lia]).
    assert (N2 : numeral 16 #"02" 2) by (apply (num_more 16 #"0" 0 "2" 2 Z0); [split; [lia|left; reflexivity]|lia]).
    repeat constructor; [exists #"01"|exists #"02"|exists #"01"]; auto.
  - apply (num_one 16 "1" 1); [split; [lia|left; reflexivity]|lia].
Qed.

Example C80_example :
  to_lines (demo_told [".log on"; "nop"; "a: ldi $102"; ".org 16 20"; ".db 1"; ".log off"; "nop"]%string) =
    [ #"not assembled at line 1 of main.s: ['.log', 'on']";
      #"assembled at line 2 of main.s: ['nop'] -> (0xea) at 0x0";
      #"not assembled at line 3 of main.s: ['a']";
      #"assembled at line 3 of main.s: ['ldi', '$102'] -> (0x01,0x02,0x01) at 0x1";
      #"not assembled at line 4 of main.s: ['.org', '16', '20']";
      #"assembled at line 5 of main.s: ['.db', '1'] -> (0x01) at 0x4" ] /\
  to_lines (demo_told ["nop"; "a: ldi $102"]%string) = [] /\
  (let code := lines [".log on"; "nop"; "a: ldi $102"]%string in
   let ss := [Stmt KInstruction [#"nop"] 2; Stmt KLabel [#"a"] 3; Stmt KInstruction [#"ldi"; #"$102"] 3] in
   tokenize code = Ok ([Stmt KDirective [#".log"; #"on"] 1] ++ ss) /\
   (exists s0, exec demo 5 [Stmt KDirective [#".log"; #"on"] 1] (init_st []) = (s0, Ok tt) /\ log s0 = true) /\
   (forall l t0 ops d, In (Stmt KDirective (t0 :: ops) l) ss -> names demo t0 d -> ~ noisy d (length ops)) /\
   to_out (r_assemble demo plain_said 5 None code (init_st []) []) = Fine tt /\
   Forall is_byte (assembled (to_st (r_assemble demo plain_said 5 None code (init_st []) [])))).
Proof.
  split; [vm_compute; reflexivity|]. split; [vm_compute; reflexivity|]. cbv zeta. split; [vm_compute; reflexivity|].
  split; [eexists; split; [vm_compute; reflexivity|reflexivity]|]. split.
  - intros l t0 ops d I. exfalso. repeat (destruct I as [I|I]; [discriminate I|]). exact I.
  - split; [vm_compute; reflexivity|]. vm_compute. repeat constructor; discriminate.
Qed.

Print Assumptions C80_log.
Print Assumptions C80_complete.
Print Assumptions C80_silent.
Print Assumptions C79_unambiguous.
Print Assumptions C79_one_line.
Print Assumptions C80_readable.
