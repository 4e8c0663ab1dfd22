(** Concrete cases of C40 to C43, C50 and C51: every theorem is applied to a program for the
    MIPS or the ARM in Thumb state that meets its hypotheses. *)
From Coq Require Import Lia.
From Verif Require Import Py PyFacts Utils Tokenizer State Assembler Instr Mips32 Thumb Demo SpecUtils SpecParse SpecSubst SpecTok
  SpecExec SpecLink SpecCpu SpecPlace Events ExecFacts CpuFacts FitFacts PlaceFacts Reach PropsPlace PropsMosLink CasesText CasesMos.
From Verif Require SpecMips MipsFacts SpecThumb ThumbFacts.
From Verif Require Import PropsMips PropsThumb.
Local Open Scope Z_scope.

(** ** MIPS *)

Section Mips.
Import SpecMips MipsFacts.
Definition c40_words : list str := [#"ADD"; #"$t0"; #"$S1"; #"$18"].
Ltac fresh_name := intros I; vm_compute in I; repeat (destruct I as [I|I]; [discriminate I|]); exact I.
Example C40_encoding_case := proj2 (C40_encoding true demo_env 5 c40_words 1 (init_st [])
  (after mips_be (Stmt KInstruction c40_words 1) (init_st [])) #"ADD" (tl c40_words) (RdRsRt 0x20)
  ltac:(part 0 C40_example) ltac:(part 1 C40_example) ltac:(fresh_name) ltac:(fresh_name))
  ltac:(exists 0x02324020, []; split; [part 2 C40_example|computes]).
Example C40_encoded_case := proj1 (C40_encoding true demo_env 5 c40_words 1 (init_st [])
  (after mips_be (Stmt KInstruction c40_words 1) (init_st [])) #"ADD" (tl c40_words) (RdRsRt 0x20)
  ltac:(part 0 C40_example) ltac:(part 1 C40_example) ltac:(fresh_name) ltac:(fresh_name)) ltac:(done).
Example C40_unknown_case := C40_unknown false demo_env [#"move"; #"$1"; #"$2"] (init_st []) #"move" [#"$1"; #"$2"] ltac:(plainly)
  ltac:(let f := fresh in let I := fresh in intros f I; apply (in_map fst) in I; vm_compute in I;
    repeat (destruct I as [I|I]; [discriminate I|]); exact I).
Example C40_unambiguous_case := C40_unambiguous true (init_st []) (RdRsRt 0x20) (tl c40_words) _ _ _ _
  ltac:(part 2 C40_example) ltac:(part 2 C40_example).

Definition c41_a : stmt := Stmt KInstruction [#"lui"; #"$t0"; #"data"] 2.
Definition c41_b : stmt := Stmt KInstruction [#"llo"; #"$t0"; #"data"] 3.
Lemma t0_reg : reg #"$t0" 8.
Proof. apply reg_iff. computes. Qed.
Example C41_half_case := C41_half true demo_env 5 c41_text (init_st []) (before mips_be c41_text 1) _ 2
  (after mips_be c41_a (before mips_be c41_text 1)) (whole mips_be c41_text) (linked_image mips_be c41_text) #"lui" [#"$t0"; #"data"] true 0x0F
  ltac:(apply demo_files; reflexivity) (sane_init []) ltac:(part 1 C41_example) ltac:(part 3 C41_example) ltac:(part 5 C41_example)
  ltac:(part 7 C41_example) ltac:(done).
Example C41_recombine_case := C41_recombine true demo_env 5 c41_text (init_st []) (whole mips_be c41_text) (linked_image mips_be c41_text)
  (before mips_be c41_text 1) _ 2 (after mips_be c41_a (before mips_be c41_text 1)) #"lui" #"$t0" #"data" 0x0F 8
  (before mips_be c41_text 3) _ 3 (after mips_be c41_b (before mips_be c41_text 3)) #"llo" #"$t0" 0x18 8
  ltac:(apply demo_files; reflexivity) (sane_init []) ltac:(part 1 C41_example) ltac:(part 2 C41_example)
  ltac:(part 3 C41_example) ltac:(part 5 C41_example) t0_reg
  ltac:(part 4 C41_example) ltac:(part 6 C41_example) t0_reg ltac:(part 7 C41_example) ltac:(done).

Definition c50_x : stmt := Stmt KInstruction [#"bne"; #"$t0"; #"$zero"; #"top"] 3.
Definition c50_j : stmt := Stmt KInstruction [#"jal"; #"top"] 4.
Example C50_branch_case := C50_branch true demo_env 5 c50_text (init_st []) (before mips_be c50_text 3) _ 3
  (after mips_be c50_x (before mips_be c50_text 3)) (whole mips_be c50_text) (linked_image mips_be c50_text)
  #"bne" [#"$t0"; #"$zero"; #"top"] (RsRtTarget 5) #"top" 5 8 0
  ltac:(apply demo_files; reflexivity) (sane_init []) ltac:(part 0 C50_example) ltac:(part 2 C50_example) ltac:(part 4 C50_example) ltac:(part 6 C50_example)
  ltac:(part 7 C50_example) ltac:(no_select_in) ltac:(no_ops_in) ltac:(discriminate) ltac:(vm_compute; discriminate)
  ltac:(part 10 C50_example) ltac:(done).
Example C50_jump_case := C50_jump true demo_env 5 c50_text (init_st []) (before mips_be c50_text 4) _ 4
  (after mips_be c50_j (before mips_be c50_text 4)) (whole mips_be c50_text) (linked_image mips_be c50_text) #"jal" #"top" 3
  ltac:(apply demo_files; reflexivity) (sane_init []) ltac:(part 1 C50_example) ltac:(part 3 C50_example) ltac:(part 5 C50_example)
  ltac:(part 8 C50_example) ltac:(no_select_in) ltac:(no_ops_in) ltac:(discriminate) ltac:(part 10 C50_example) ltac:(done).
Definition c50_far : str := Demo.lines [".org 0x80010000"; "bne $t0,$zero,top"; ".org 0x80040000"; "top: syscall"]%string.
Definition c50_y : stmt := Stmt KInstruction [#"bne"; #"$t0"; #"$zero"; #"top"] 2.
Example C50_too_far_case := C50_too_far true demo_env 5 c50_far (init_st []) (before mips_be c50_far 1) _ 2
  (after mips_be c50_y (before mips_be c50_far 1)) (whole mips_be c50_far)
  #"bne" [#"$t0"; #"$zero"; #"top"] (RsRtTarget 5) #"top" 5 8 0
  ltac:(apply demo_files; reflexivity) (sane_init []) ltac:(reached 1%nat) ltac:(plainly) ltac:(part 4 C50_example) ltac:(part 6 C50_example)
  ltac:(computes) ltac:(no_select_in) ltac:(no_ops_in) ltac:(discriminate) ltac:(vm_compute; discriminate)
  ltac:(untexted) ltac:(out_of_reach 0x80040000).
End Mips.

(** ** Thumb *)

Section Thumb.
Import SpecThumb ThumbFacts.
Definition c42_words : list str := [#"add"; #"R1"; #"r2"; #"#7"].
Example C42_encoding_case := proj2 (C42_encoding demo_env 5 c42_words 1 (init_st []) (after th (Stmt KInstruction c42_words 1) (init_st []))
  #"add" (tl c42_words) ltac:(part 0 C42_example) ltac:(discriminate) ltac:(discriminate) ltac:(vm_compute; discriminate) ltac:(part 3 C42_example))
  ltac:(exists 0x1C00, [Rl 0; Rl 3; Imm 3 6 0], 0x1D1, []; split; [part 1 C42_example|split; [part 2 C42_example|computes]]).
Example C42_encoded_case := proj1 (C42_encoding demo_env 5 c42_words 1 (init_st []) (after th (Stmt KInstruction c42_words 1) (init_st []))
  #"add" (tl c42_words) ltac:(part 0 C42_example) ltac:(discriminate) ltac:(discriminate) ltac:(vm_compute; discriminate) ltac:(part 3 C42_example))
  ltac:(done).
Definition c42_push : list str := [#"push"; #"{"; #"r0"; #"R4-r6"; #"}"].
Example C42_push_case := proj2 (C42_push demo_env 5 c42_push 1 (init_st []) (after th (Stmt KInstruction c42_push 1) (init_st []))
  #"push" (tl c42_push) ltac:(plainly) eq_refl
  ltac:(intros pre x E; change (tl c42_push) with ([#"{"; #"r0"] ++ [#"R4-r6"; #"}"]) in E;
    change [x; #"}"] with ([x] ++ [#"}"]) in E; change [#"R4-r6"; #"}"] with ([#"R4-r6"] ++ [#"}"]) in E;
    rewrite !app_assoc in E; apply app_inj_tail in E; destruct E as [E _]; apply app_inj_tail in E; destruct E as [_ <-]; discriminate))
  ltac:(exists [#"r0"; #"R4-r6"], 0x71; split; [reflexivity|split; [discriminate|split; [part 5 C42_example|computes]]]).

Definition c51_a : stmt := Stmt KInstruction [#"bne"; #"there"] 1.
Definition c51_b : stmt := Stmt KInstruction [#"ldr"; #"r3"; #"["; #"pc"; #"#there"; #"]"] 3.
Ltac divides k := exists k; vm_compute; reflexivity.
Example C51_branch_case := C51_branch demo_env 5 c51_text (init_st []) (before th c51_text 1) _ 1
  (after th c51_a (before th c51_text 1)) (whole th c51_text) (linked_image th c51_text) #"bne" 0xD100 8 "t"%char #"here"
  ltac:(apply demo_files; reflexivity) (sane_init []) ltac:(part 2 C51_example) ltac:(part 4 C51_example) ltac:(part 6 C51_example)
  ltac:(discriminate) ltac:(part 7 C51_example) ltac:(no_select_in) ltac:(no_ops_in) ltac:(vm_compute; discriminate) ltac:(divides 0)
  ltac:(part 9 C51_example) ltac:(done).
Example C51_load_case := C51_load demo_env 5 c51_text (init_st []) (before th c51_text 3) _ 3
  (after th c51_b (before th c51_text 3)) (whole th c51_text) (linked_image th c51_text) #"ldr" #"r3" 3 #"pc" #"there"
  ltac:(apply demo_files; reflexivity) (sane_init []) ltac:(part 3 C51_example) ltac:(part 5 C51_example) eq_refl
  ltac:(vm_compute; tauto) ltac:(vm_compute; tauto) ltac:(discriminate) ltac:(part 8 C51_example) ltac:(no_select_in) ltac:(no_ops_in)
  ltac:(vm_compute; discriminate) ltac:(divides 2) ltac:(part 9 C51_example) ltac:(done).
Definition c51_far : str := Demo.lines ["bne there"; ".org 0x1000"; "there: bx lr"]%string.
Ltac beyond a0 := let a := fresh in let A := fresh in let H := fresh in intros a A; left; intros H;
  match type of A with address_of ?l ?t _ =>
    let E := fresh in
    assert (E : a = a0) by (apply (the_address l t _ _ A); eexists; split; vm_compute; reflexivity);
    rewrite E in H; vm_compute in H; destruct H; congruence end.
Example C51_too_far_case := C51_too_far demo_env 5 c51_far (init_st []) (before th c51_far 0) _ 1
  (after th c51_a (before th c51_far 0)) (whole th c51_far) #"bne" 0xD100 8 "t"%char #"here"
  ltac:(apply demo_files; reflexivity) (sane_init []) ltac:(reached 0%nat) ltac:(plainly) ltac:(part 6 C51_example)
  ltac:(discriminate) ltac:(computes) ltac:(no_select_in) ltac:(no_ops_in) ltac:(vm_compute; discriminate)
  ltac:(untexted) ltac:(beyond 0x1000).

Definition c43_x : stmt := Stmt KInstruction [#"bl"; #"g"] 4.
Example C43_number_case := C43_number demo_env 5 [#"bl"; #"0x1000"] 1 (init_st []) #"bl" "0"%char #"x1000" 0x1000
  ltac:(plainly) eq_refl ltac:(discriminate) ltac:(computes) ltac:(discriminate).
Example C43_call_case := C43_call demo_env 5 c43_text (init_st []) (before th c43_text 4) _ 4
  (after th c43_x (before th c43_text 4)) (whole th c43_text) (linked_image th c43_text) #"bl" "g"%char []
  ltac:(apply demo_files; reflexivity) (sane_init []) ltac:(part 2 C43_example) ltac:(part 3 C43_example) eq_refl
  ltac:(discriminate) ltac:(part 4 C43_example) ltac:(no_select_in) ltac:(no_ops_in) ltac:(vm_compute; discriminate) ltac:(divides 0x4000003)
  ltac:(part 6 C43_example) ltac:(done).
Definition c43_far : str := Demo.lines ["bl there"; ".org 0x8000000"; "there: bx lr"]%string.
Definition c43_y : stmt := Stmt KInstruction [#"bl"; #"there"] 1.
Example C43_too_far_case := C43_too_far demo_env 5 c43_far (init_st []) (before th c43_far 0) _ 1
  (after th c43_y (before th c43_far 0)) (whole th c43_far) #"bl" "t"%char #"here"
  ltac:(apply demo_files; reflexivity) (sane_init []) ltac:(reached 0%nat) ltac:(plainly) eq_refl
  ltac:(discriminate) ltac:(computes) ltac:(no_select_in) ltac:(no_ops_in) ltac:(vm_compute; discriminate)
  ltac:(untexted) ltac:(beyond 0x8000000).
End Thumb.
