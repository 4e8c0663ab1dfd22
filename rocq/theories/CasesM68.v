(** Concrete cases of C58 to C60: every theorem is applied to a program for the 68000 that
    meets its hypotheses. *)
From Coq Require Import Lia.
From Verif Require Import Reach CasesText CasesMos.
From Verif Require Import Py PyFacts Utils Tokenizer State Assembler SpecUtils SpecParse SpecSubst SpecExec SpecLink
  SpecCpu SpecPlace SpecPlat Instr Mc68000 Platform CpuFacts Demo PropsPlace PropsMosLink PropsFit PropsPlat FitFacts.
From Verif Require Import SpecM68 M68Lex M68Facts M68Ops PropsM68.
Local Open Scope Z_scope.

Definition c58_words : list str := [#"move.l"; #"("; #"4"; #"a0"; #")"; #"-"; #"("; #"a7"; #")"].
Definition c58_s : st := before mm c58_text 1.
Definition c58_t : st := after mm (Stmt KInstruction c58_words 2) c58_s.
Example C58_encoding_case := proj2 (C58_encoding demo_env c58_s c58_words #"move.l" (tl c58_words) _ 5 2 c58_t
  ltac:(plainly) ltac:(vm_compute; discriminate) ltac:(part 0 C58_example))
  ltac:(exists [0x2F; 0x28; 0; 4], []; split; [part 3 C58_example|computes]).
Example C58_encoded_case := proj1 (C58_encoding demo_env c58_s c58_words #"move.l" (tl c58_words) _ 5 2 c58_t
  ltac:(plainly) ltac:(vm_compute; discriminate) ltac:(part 0 C58_example)) ltac:(done).
(** JMP (A0)+ is not in the manual. *)
Definition c58_odd : list str := [#"jmp"; #"("; #"a0"; #")"; #"+"].
Example C58_accepted_case := C58_accepted demo_env c58_s c58_odd #"jmp" (tl c58_odd) 5 2 (after mm (Stmt KInstruction c58_odd 2) c58_s)
  ltac:(plainly) ltac:(vm_compute; discriminate) ltac:(done).
Example C58_deterministic_case := C58_deterministic c58_s #"move.l" (tl c58_words) _ _ _ _ _ _ ltac:(vm_compute; discriminate)
  ltac:(part 0 C58_example) ltac:(part 0 C58_example) ltac:(part 3 C58_example) ltac:(part 3 C58_example).

Lemma m_reached : passes_through mm 5 c58_text (init_st []) (m_at 7) (Stmt KInstruction [#"movea.w"; #"tab"; #"a1"] 7) (fst (exec mm 5 [m_stmt 7] (m_at 7))) m_end.
Proof. pose proof C59_example as (_ & _ & H & E & _). rewrite <- E. exact H. Qed.
Example C59_linked_case := C59_linked demo_env 5 c58_text (init_st []) (m_at 7) _ 7 _ m_end (linked_image mm c58_text) #"movea.w" [#"tab"; #"a1"] _
  ltac:(apply demo_files; reflexivity) (sane_init []) m_reached ltac:(part 4 C59_example) ltac:(part 5 C59_example)
  ltac:(vm_compute; discriminate) ltac:(part 7 C59_example) ltac:(done).

Lemma m_branch : passes_through mm 5 c58_text (init_st []) (m_at 5) (Stmt KInstruction [#"bne.b"; #"start"] 5) (fst (exec mm 5 [m_stmt 5] (m_at 5))) m_end.
Proof. pose proof C60_example as (H & E & _). rewrite <- E. exact H. Qed.
Lemma m_loop : passes_through mm 5 c58_text (init_st []) (m_at 6) (Stmt KInstruction [#"dbra"; #"d2"; #"start"] 6) (fst (exec mm 5 [m_stmt 6] (m_at 6))) m_end.
Proof. pose proof C60_example as (_ & _ & _ & _ & _ & _ & _ & _ & H & E & _). rewrite <- E. exact H. Qed.
Lemma ne_cond : In (#"ne", 6) cond_names.
Proof. vm_compute. tauto. Qed.
Example C60_branch_case := C60_branch demo_env 5 c58_text (init_st []) (m_at 5) _ 5 _ m_end (linked_image mm c58_text) #"bne.b" #"ne" 6 1 #"start"
  ltac:(apply demo_files; reflexivity) (sane_init []) m_branch ltac:(part 2 C60_example) ne_cond ltac:(part 3 C60_example)
  ltac:(left; reflexivity) ltac:(part 4 C60_example) ltac:(part 5 C60_example) ltac:(part 6 C60_example) ltac:(part 7 C60_example)
  ltac:(discriminate) ltac:(vm_compute; discriminate) ltac:(part 7 C59_example) ltac:(done).
Example C60_loop_case := C60_loop demo_env 5 c58_text (init_st []) (m_at 6) _ 6 _ m_end (linked_image mm c58_text) #"dbra" #"ra" 1 #"d2" 2 #"start"
  ltac:(apply demo_files; reflexivity) (sane_init []) m_loop ltac:(part 10 C60_example) ltac:(left; reflexivity) ltac:(part 11 C60_example)
  ltac:(part 12 C60_example) ltac:(part 4 C60_example) ltac:(part 13 C60_example) ltac:(part 6 C60_example) ltac:(part 7 C60_example)
  ltac:(discriminate) ltac:(vm_compute; discriminate) ltac:(part 7 C59_example) ltac:(done).
(** The program counter relative operand of LEA. *)
Lemma m_lea : passes_through mm 5 c58_text (init_st []) (m_at 4) (Stmt KInstruction [#"lea"; #"("; #"tab"; #"pc"; #"d1.l"; #")"; #"a3"] 4)
  (after mm (Stmt KInstruction [#"lea"; #"("; #"tab"; #"pc"; #"d1.l"; #")"; #"a3"] 4) (m_at 4)) m_end.
Proof. reached 4%nat. Qed.
Example C60_lands_case := C60_lands demo_env 5 c58_text (init_st []) (m_at 4) _ 4 _ m_end (linked_image mm c58_text) #"lea"
  [#"("; #"tab"; #"pc"; #"d1.l"; #")"; #"a3"] [Fixed 0x47FB] (pc_index8 0x1800) 0 #"tab" []
  ltac:(apply demo_files; reflexivity) (sane_init []) m_lea ltac:(plainly) ltac:(part 2 C58_example) eq_refl
  ltac:(computes) ltac:(no_select_in) ltac:(no_ops_in) ltac:(discriminate) ltac:(vm_compute; discriminate) ltac:(part 7 C59_example) ltac:(done).
Example C60_too_far_case := C60_too_far demo_env 5 c60_far (init_st []) (init_st []) [#"beq.b"; #"far"] 1 _ (whole mm c60_far) #"beq.b" [#"far"]
  [] (branch8 0x6700) 2 #"far" [] ltac:(apply demo_files; reflexivity) (sane_init []) ltac:(part 0 C60_far_example) ltac:(plainly)
  ltac:(part 1 C60_far_example) eq_refl ltac:(part 2 C60_far_example) ltac:(no_select_in) ltac:(no_ops_in) ltac:(discriminate)
  ltac:(vm_compute; discriminate) ltac:(part 3 C60_far_example) ltac:(out_of_reach 130).
