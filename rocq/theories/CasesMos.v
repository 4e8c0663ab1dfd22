(** Concrete cases of C36 to C39 and C49: every theorem is applied to a program of the
    6502 that meets its hypotheses. *)
From Coq Require Import Lia.
From Verif Require Import Py PyFacts Utils Tokenizer State Assembler Instr Mos6502 Demo SpecUtils SpecParse SpecSubst SpecTok
  SpecExec SpecSim SpecMacro SpecLink SpecCpu SpecPlace SpecMos Events ExecFacts CpuFacts FitFacts PlaceFacts MosFacts FitMos Reach
  PropsExec PropsLink PropsMacro PropsRuns PropsPlace PropsMos PropsMosLink PropsFit CasesText.
Local Open Scope Z_scope.

(** The program before its statement n, after assembling, and linked. *)
Notation before c text n := (fst (exec c 5 (firstn n%nat (stmts_of text)) (init_st []))).
Notation after c x s := (fst (exec c 5 [x] s)).
Notation whole c text := (fst (assemble c 5 text (init_st []))).
Notation linked_image c text := (fst (link c dummy_linker (fst (assemble c 5 text (init_st []))))).
(** Conjunct n of a proved conjunction. *)
Tactic Notation "part" integer(n) constr(E) :=
  let H := fresh in pose proof E as H; cbv zeta in H; do n (destruct H as [_ H]);
  first [exact (proj1 H) | exact H | apply short_of; exact (proj1 H) | apply short_of; exact H].
Ltac done := apply fine_pair; vm_compute; reflexivity.
Ltac computes := vm_compute; reflexivity.
Ltac plainly := apply plain_stmt; vm_compute; reflexivity.

Lemma demo_files : forall c, c_env c = demo_env -> byte_files c.
Proof. intros c E n b H. rewrite E in H. exact (mos_files n b H). Qed.

(** ** C36 *)

Definition c36_state : st := mos_state [".org $8000"; "x:"]%string.
Definition c36_words : list str := [#"lda"; #"("; #"$44"; #")"; #"y"].
Example C36_encoding_case := proj2 (C36_encoding demo_env c36_state c36_words #"lda" (tl c36_words) 5 1
  (after mos (Stmt KInstruction c36_words 1) c36_state) ltac:(part 0 C36_example))
  ltac:(exists (ParenY #"$44"), [0xB1; 0x44], []; split; [part 1 C36_example|split; [part 2 C36_example|computes]]).
Example C36_encoded_case := proj1 (C36_encoding demo_env c36_state c36_words #"lda" (tl c36_words) 5 1
  (after mos (Stmt KInstruction c36_words 1) c36_state) ltac:(part 0 C36_example)) ltac:(done).
Example C36_deterministic_case := C36_deterministic c36_state #"LDA" (ParenY #"$44") [0xB1; 0x44] [] [0xB1; 0x44] []
  ltac:(part 2 C36_example) ltac:(part 2 C36_example).
Example C36_unknown_case := C36_unknown demo_env c36_state [#"bra"; #"x"] #"bra" [#"x"] 5 1 ltac:(plainly)
  ltac:(intros op m I; assert (X : existsb (fun y => str_eqb (snd (fst y)) #"BRA") manual = true)
      by (apply existsb_exists; eexists; split; [exact I|reflexivity]); vm_compute in X; discriminate X).

(** ** C37 *)

Definition c37_x : stmt := Stmt KInstruction [#"bne"; #"back"] 3.
Example C37_lands_case := C37_lands demo_env 5 c37_text (init_st []) (before mos c37_text 3) [#"bne"; #"back"] 3
  (after mos c37_x (before mos c37_text 3)) (whole mos c37_text) (linked_image mos c37_text) #"bne" #"back" [] 0xD0
  mos_files (sane_init []) ltac:(part 0 C37_example) ltac:(part 1 C37_example) ltac:(part 2 C37_example)
  ltac:(part 3 C37_example) ltac:(no_select_in) ltac:(no_ops_in) ltac:(discriminate) ltac:(vm_compute; discriminate)
  ltac:(untexted) ltac:(done).
Lemma the_address : forall l t a b, address_of l t a -> address_of l t b -> a = b.
Proof. intros l t a b (d & D & ->) (e & E & ->). congruence. Qed.
Ltac out_of_reach a0 := let a := fresh in let A := fresh in let H := fresh in intros a A H;
  match type of A with address_of ?l ?t _ =>
    let E := fresh in
    assert (E : a = a0) by (apply (the_address l t _ _ A); eexists; split; vm_compute; reflexivity);
    rewrite E in H; vm_compute in H; destruct H; congruence end.
Example C37_too_far_case := C37_too_far demo_env 5 c37_far (init_st []) (before mos c37_far 0) [#"bne"; #"far"] 1
  (after mos (Stmt KInstruction [#"bne"; #"far"] 1) (before mos c37_far 0)) (whole mos c37_far) #"bne" #"far" [] 0xD0
  mos_files (sane_init []) ltac:(reached 0%nat) ltac:(plainly) ltac:(part 2 C37_example)
  ltac:(computes) ltac:(no_select_in) ltac:(no_ops_in) ltac:(discriminate) ltac:(vm_compute; discriminate)
  ltac:(untexted) ltac:(out_of_reach 130).

(** ** C38 *)

Definition c38_x : stmt := Stmt KInstruction [#"lda"; #"zp"] 3.
Example C38_sound_case := C38_sound demo_env 5 c38_text (init_st []) (before mos c38_text 3) [#"lda"; #"zp"] 3
  (after mos c38_x (before mos c38_text 3)) (whole mos c38_text) (linked_image mos c38_text) #"lda" [#"zp"] (Direct #"zp") #"zp" _ _
  mos_files (sane_init []) ltac:(part 0 C38_example) ltac:(part 1 C38_example) ltac:(part 2 C38_example) eq_refl
  ltac:(part 3 C38_example) ltac:(untexted) ltac:(done).

(** ** C39 *)

Definition c39_text : str := Demo.lines [".macro twice a"; "lda a"; "sta a"; ".endmacro"; ".section text RX"; "x: twice x"; "beq x"]%string.
Definition c39_fits : fits mos := proj1 (mos_fits demo_env).
Lemma c39_history : history mos (fun lk => lk = dummy_linker) (init_st []) (linked_image mos c39_text).
Proof. apply h_link; [|reflexivity]. apply h_assemble, h_start. Qed.
Lemma c39_start : history mos (fun _ => False) (init_st []) (init_st []).
Proof. apply h_start. Qed.
Definition handler_of (c : cfg) (k : str) : list str -> M (option bytes) :=
  match dget str_eqb (c_instructions c) k with Some (OFun f) => f | _ => fun _ => ret None end.
Lemma handler_found : forall c k, match dget str_eqb (c_instructions c) k with Some (OFun f) => true | _ => false end = true ->
  dget str_eqb (c_instructions c) k = Some (OFun (handler_of c k)).
Proof. intros c k H. unfold handler_of. destruct (dget str_eqb (c_instructions c) k) as [[]|]; congruence. Qed.
Example C39_frame_case := C39_frame mos c39_fits #"LDA" (handler_of mos #"LDA") [#"lda"; #"x"] (whole mos c39_text)
  (handler_found mos #"LDA" ltac:(computes)).
Example C39_labels_case := C39_labels mos c39_fits (whole mos c39_text) (linked_image mos c39_text)
  ltac:(apply h_link; [apply h_start|reflexivity]) #"x" _ ltac:(computes).
Example C39_output_case := C39_output mos c39_fits 5 c39_text (init_st []).
Lemma c39_free : program_free mos (fun d n => moves_origin d n \/ reserves d n) c39_text.
Proof.
  split; intros a b; [intros t0 ops d T|intros F; cbn [mos mos6502 mk_cfg c_env file_text demo_env] in F;
    destruct (str_eqb a #"inc.s"); [|discriminate]; injection F as <-; clear a; intros ss l t0 ops d T].
  all: vm_compute in T; injection T as <-; intros I; cbn [In] in I;
    repeat (destruct I as [I|I]; [try discriminate I; injection I as <- <- _; intros E; vm_compute in E;
      injection E as <-; intros [[H|[H K]]|H]; discriminate|]); contradiction.
Qed.
Example C39_pc_case := C39_pc mos c39_fits 5 c39_text (init_st []) c39_free.
Example C39_bytes_case := C39_bytes mos c39_fits [] (linked_image mos c39_text) mos_files c39_history.
Definition c39_open : str := Demo.lines [".macro twice a"; "lda a"]%string.
Example C39_recording_case := C39_recording mos c39_fits [] (whole mos c39_open) ltac:(apply h_assemble, h_start) #"TWICE" ltac:(computes).
Example C39_sections_case := C39_sections mos c39_fits 5 c39_text [] (init_st []) (whole mos c39_text) c39_start ltac:(done)
  ltac:(vm_compute; intros [I|[]]; discriminate I).
Definition c39_more : str := Demo.lines ["lda x"; "x: rts"]%string.
Example C39_pieces_case := C39_pieces mos c39_fits 5 c39_text c39_more _ _ (init_st []) ltac:(cbn; lia)
  ltac:(apply plain_source; computes) ltac:(computes) ltac:(intros _; computes).
Example C39_log_case := C39_log mos c39_fits 5 #".log" [#"on"] 2 [Stmt KInstruction [#"nop"] 1] [Stmt KInstruction [#"lda"; #"x"] 3]
  (init_st []) ltac:(computes).
Lemma c39_expands : expands mos (macros (whole mos c39_text)) (defines (whole mos c39_text)) [] [#"twice"; #"$44"] [[#"lda"; #"$44"]; [#"sta"; #"$44"]].
Proof.
  assert (SB : forall d t u, map (subst_token d) t = u -> Forall2 (substituted d) t u).
  { intros d t u <-. induction t; constructor; auto. apply SubstFacts.subst_token_substituted. }
  eapply (ex_macro _ _ _ _ _ #"twice" [#"$44"]).
  - apply SB. computes.
  - computes.
  - vm_compute. tauto.
  - cbn. lia.
  - change [[#"lda"; #"$44"]; [#"sta"; #"$44"]] with ([[#"lda"; #"$44"]] ++ [[#"sta"; #"$44"]] ++ []).
    eapply eb_cons; [apply SB; computes|apply ex_op; [apply SB; computes|computes]|].
    eapply eb_cons; [apply SB; computes|apply ex_op; [apply SB; computes|computes]|constructor].
Qed.
Example C39_expansion_case := C39_expansion mos c39_fits (whole mos c39_text) _ _ ltac:(computes) c39_expands.

(** ** C49 *)

Definition c49_x : stmt := Stmt KInstruction [#"jmp"; #"far"] 2.
Definition c49_s : st := fst (exec mos 5 [Stmt KInstruction [#"nop"] 1] (init_st [])).
Example C49_tidy_case := C49_tidy mos 5 c49_text (init_st []) (whole mos c49_text) c39_fits (proj2 (mos_fits demo_env)) mos_files
  (sane_init []) ltac:(done).
Example C49_field_case := C49_field mos 5 c49_text (init_st []) c49_s c49_x (after mos c49_x c49_s) (whole mos c49_text) (linked_image mos c49_text)
  [0x4C; 0; 0] [ref #"far" 2 16 1 0] (ref #"far" 2 16 1 0) c39_fits (proj2 (mos_fits demo_env)) mos_files (sane_init [])
  ltac:(part 4 C49_example) ltac:(part 5 C49_example) ltac:(apply Forall_cons; [repeat split; cbn; try lia; discriminate|apply Forall_nil]) ltac:(part 7 C49_example) ltac:(part 6 C49_example)
  ltac:(done) ltac:(left; reflexivity).
Example C49_rest_case := C49_rest mos 5 c49_text (init_st []) c49_s c49_x (after mos c49_x c49_s) (whole mos c49_text) (linked_image mos c49_text)
  [0x4C; 0; 0] [ref #"far" 2 16 1 0] 0 c39_fits (proj2 (mos_fits demo_env)) mos_files (sane_init [])
  ltac:(part 4 C49_example) ltac:(part 5 C49_example) ltac:(apply Forall_cons; [repeat split; cbn; try lia; discriminate|apply Forall_nil]) ltac:(part 7 C49_example) ltac:(part 6 C49_example)
  ltac:(done) ltac:(cbn; lia) ltac:(intros d [<- | []]; unfold covers; cbn; lia).
