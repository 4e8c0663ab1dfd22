(** Concrete cases of C44 and C56: every theorem is applied to a program for the LR35902 or
    the Z80 that meets its hypotheses. *)
From Coq Require Import Lia.
From Verif Require Import Py PyFacts Utils Tokenizer State Assembler Instr Lr35902 Z80 Demo SpecUtils SpecParse SpecSubst SpecTok
  SpecExec SpecLink SpecCpu SpecPlace SpecByte Events ExecFacts CpuFacts FitFacts PlaceFacts Reach PropsPlace PropsMosLink CasesText CasesMos.
From Verif Require SpecLr LrFacts PropsLr SpecZ80 Z80Facts PropsZ80.
Local Open Scope Z_scope.

(** ** LR35902 *)

Section Lr.
Import SpecLr LrFacts PropsLr.
Definition c44_words : list str := [#"jr"; #"nz"; #"loop"].
Definition c44_s : st := before gb c44_text 3.
Definition c44_x : stmt := Stmt KInstruction c44_words 3.
Example C44_encoding_case := proj2 (C44_encoding demo_env c44_s c44_words #"jr" (tl c44_words) 5 3 (after gb c44_x c44_s)
  ltac:(part 1 C44_example) ltac:(vm_compute; discriminate) ltac:(discriminate) (jr_not_odd _))
  ltac:(exists [0x20; 0], [ref #"loop" 1 8 1 0x153]; split; [part 4 C44_example|computes]).
Example C44_encoded_case := proj1 (C44_encoding demo_env c44_s c44_words #"jr" (tl c44_words) 5 3 (after gb c44_x c44_s)
  ltac:(part 1 C44_example) ltac:(vm_compute; discriminate) ltac:(discriminate) (jr_not_odd _)) ltac:(done).
Example C44_deterministic_case := C44_deterministic c44_s #"JR" (tl c44_words) _ _ _ _ ltac:(discriminate) (jr_not_odd _)
  ltac:(part 4 C44_example) ltac:(part 4 C44_example).
Lemma c44_form : In (#"JR", ([0x20], [W #"NZ"; V Disp])) manual.
Proof. apply in_or_app. left. apply in_or_app. left. do 4 right. left. reflexivity. Qed.
Lemma c44_operands : operands [W #"NZ"; V Disp] [#"nz"; #"loop"] [(Disp, #"loop")].
Proof.
  apply (os_cons (W #"NZ") [V Disp] #"nz" [#"loop"] [] [(Disp, #"loop")]); [constructor; reflexivity|].
  apply (os_cons (V Disp) [] #"loop" [] [(Disp, #"loop")] []); [|constructor]. constructor. intros I. apply str_in_In in I. discriminate.
Qed.
Example C44_linked_case := C44_linked demo_env 5 c44_text (init_st []) c44_s c44_words 3 (after gb c44_x c44_s)
  (whole gb c44_text) (linked_image gb c44_text) #"jr" (tl c44_words) [0x20] _ _ ltac:(apply demo_files; reflexivity) (sane_init [])
  ltac:(part 0 C44_example) ltac:(part 1 C44_example) ltac:(discriminate) (jr_not_odd _) c44_form c44_operands
  ltac:(vm_compute; discriminate) ltac:(part 6 C44_example) ltac:(done).
Example C44_jump_case := C44_jump demo_env 5 c44_text (init_st []) c44_s c44_words 3 (after gb c44_x c44_s)
  (whole gb c44_text) (linked_image gb c44_text) #"jr" (tl c44_words) 0x20 #"loop" ltac:(apply demo_files; reflexivity) (sane_init [])
  ltac:(part 0 C44_example) ltac:(part 1 C44_example) ltac:(part 2 C44_example) ltac:(part 5 C44_example)
  ltac:(no_select_in) ltac:(no_ops_in) ltac:(discriminate) ltac:(vm_compute; discriminate) ltac:(part 6 C44_example) ltac:(done).
Definition c44_far : str := Demo.lines ["jr nz,loop"; ".org $150"; "loop: dec b"]%string.
Definition c44_y : stmt := Stmt KInstruction c44_words 1.
Example C44_too_far_case := C44_too_far demo_env 5 c44_far (init_st []) (before gb c44_far 0) c44_words 1 (after gb c44_y (before gb c44_far 0))
  (whole gb c44_far) #"jr" (tl c44_words) 0x20 #"loop" ltac:(apply demo_files; reflexivity) (sane_init [])
  ltac:(reached 0%nat) ltac:(plainly) ltac:(part 2 C44_example) ltac:(computes)
  ltac:(no_select_in) ltac:(no_ops_in) ltac:(discriminate) ltac:(vm_compute; discriminate) ltac:(untexted) ltac:(out_of_reach 0x150).
Definition c44_stack : list str := [#"ld"; #"hl"; #"SP-2"].
Example C44_stack_case := proj2 (C44_stack demo_env c44_s c44_stack #"ld" #"hl" #"2" true 5 3 (after gb (Stmt KInstruction c44_stack 3) c44_s)
  ltac:(plainly) ltac:(vm_compute; discriminate) eq_refl eq_refl)
  ltac:(exists [0xFE], []; split; [part 10 C44_example|computes]).
End Lr.

(** ** Z80 *)

Section Z80.
Import SpecZ80 Z80Facts PropsZ80.
Definition c56_s : st := before zz c56_text 3.
Definition c56_x : stmt := Stmt KInstruction c44_words 3.
Lemma c56_not_odd : ~ odd #"JR" [#"nz"; #"loop"].
Proof. intros H. inversion H as [m ops t I B| | |]; subst. cbn [In] in I. destruct I as [<-|[<-|[]]]; cbn in B; intuition discriminate. Qed.
Definition c56_rl : list str := [#"rl"; #"("; #"iy-2"; #")"].
Example C56_encoding_case := proj2 (C56_encoding demo_env c56_s c56_rl #"rl" (tl c56_rl) 5 3 (after zz (Stmt KInstruction c56_rl 3) c56_s)
  ltac:(plainly) ltac:(vm_compute; discriminate) ltac:(part 5 C56_example))
  ltac:(exists [0xFD; 0xCB; 0xFE; 0x16], []; split; [part 4 C56_example|computes]).
Example C56_encoded_case := proj1 (C56_encoding demo_env c56_s c56_rl #"rl" (tl c56_rl) 5 3 (after zz (Stmt KInstruction c56_rl 3) c56_s)
  ltac:(plainly) ltac:(vm_compute; discriminate) ltac:(part 5 C56_example)) ltac:(done).
Example C56_deterministic_case := C56_deterministic c56_s #"RL" (tl c56_rl) _ _ _ _ ltac:(part 5 C56_example)
  ltac:(part 4 C56_example) ltac:(part 4 C56_example).
Lemma c56_operands : operands [W #"NZ"; V Disp] [#"nz"; #"loop"] [(Disp, #"loop")].
Proof.
  apply (os_cons (W #"NZ") [V Disp] #"nz" [#"loop"] [] [(Disp, #"loop")]); [constructor; reflexivity|].
  apply (os_cons (V Disp) [] #"loop" [] [(Disp, #"loop")] []); [|constructor]. constructor. intros I. apply str_in_In in I. discriminate.
Qed.
Example C56_linked_case := C56_linked demo_env 5 c56_text (init_st []) c56_s c44_words 3 (after zz c56_x c56_s)
  (whole zz c56_text) (linked_image zz c56_text) #"jr" (tl c44_words) [0x20] [] [W #"NZ"; V Disp] [(Disp, #"loop")] ltac:(apply demo_files; reflexivity) (sane_init [])
  ltac:(part 0 C56_example) ltac:(part 1 C56_example) c56_not_odd ltac:(apply in_manual; computes) c56_operands
  ltac:(vm_compute; discriminate) ltac:(part 7 C56_example) ltac:(done).
Example C56_jump_case := C56_jump demo_env 5 c56_text (init_st []) c56_s c44_words 3 (after zz c56_x c56_s)
  (whole zz c56_text) (linked_image zz c56_text) #"jr" (tl c44_words) 0x20 #"loop" ltac:(apply demo_files; reflexivity) (sane_init [])
  ltac:(part 0 C56_example) ltac:(part 1 C56_example) ltac:(part 2 C56_example) ltac:(part 6 C56_example)
  ltac:(no_select_in) ltac:(no_ops_in) ltac:(discriminate) ltac:(vm_compute; discriminate) ltac:(part 7 C56_example) ltac:(done).
Example C56_too_far_case := C56_too_far demo_env 5 c44_far (init_st []) (before zz c44_far 0) c44_words 1 (after zz c44_y (before zz c44_far 0))
  (whole zz c44_far) #"jr" (tl c44_words) 0x20 #"loop" ltac:(apply demo_files; reflexivity) (sane_init [])
  ltac:(reached 0%nat) ltac:(plainly) ltac:(part 2 C56_example) ltac:(computes)
  ltac:(no_select_in) ltac:(no_ops_in) ltac:(discriminate) ltac:(vm_compute; discriminate) ltac:(untexted) ltac:(out_of_reach 0x150).
End Z80.
