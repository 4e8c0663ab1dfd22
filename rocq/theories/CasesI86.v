(** Concrete cases of C61 to C63: every theorem is applied to a program for the 8086 that
    meets its hypotheses. *)
From Coq Require Import Lia.
From Verif Require Import Reach CasesText CasesMos.
From Verif Require Import Py PyFacts Utils Tokenizer State Assembler SpecUtils SpecParse SpecSubst SpecExec SpecLink
  SpecCpu SpecPlace Instr I8086 CpuFacts Demo PropsPlace PropsMosLink PropsFit FitFacts.
From Verif Require Import SpecI86 I86Sem I86Facts I86Enc PropsI86.
Local Open Scope Z_scope.

Definition c61_s : st := before xx c61_text 4.
Definition c61_words : list str := [#"mov"; #"["; #"bp"; #"-"; #"2"; #"]"; #"cx"].
Example C61_encoding_case := C61_encoding demo_env c61_s c61_words #"mov" (tl c61_words) [Mem 6 (Some #"-2"); R16 1]
  ltac:(part 0 C61_example) ltac:(vm_compute; discriminate) ltac:(part 2 C61_example) ltac:(part 3 C61_example) ltac:(part 4 C61_example).
Example C61_unambiguous_case := C61_unambiguous _ _ _ ltac:(part 2 C61_example) ltac:(part 2 C61_example).
Definition c61_odd : list str := [#"mov"; #"["; #"bx"; #"]"; #"7"].
Example C61_accepted_case := C61_accepted demo_env (init_st []) c61_odd #"mov" (tl c61_odd) [Mem 7 None; Val #"7"] 5 1
  (after xx (Stmt KInstruction c61_odd 1) (init_st [])) ltac:(plainly) ltac:(part 1 C61_deviation) ltac:(done).

Definition c62_words : list str := [#"mov"; #"ax"; #"["; #"start"; #"]"].
Lemma c62_written : written [R16 0; Dir #"start"] (tl c62_words).
Proof.
  apply (w_cons (R16 0) [Dir #"start"] [#"ax"] [#"["; #"start"; #"]"]); [apply w_r16; split; [lia|reflexivity]|].
  apply (w_cons (Dir #"start") [] [#"["; #"start"; #"]"] []); [|constructor]. apply w_dir, is_value. reflexivity.
Qed.
Lemma c62_offered : offered #"MOV" [R16 0; Dir #"start"].
Proof. exists [AX'; Da]. split; [apply sigs_in; vm_compute; tauto|repeat constructor]. Qed.
Lemma c62_fine : forall s, ~ pitfall i86_p s #"MOV" [R16 0; Dir #"start"].
Proof.
  intros s H. inversion H as [? ? I|? ? r d I N|? ? ? I]; subst.
  - destruct I as [I|[I|[]]]; discriminate I.
  - destruct I as [I|[I|[]]]; discriminate I.
  - match goal with J : In #"MOV" _ |- _ => destruct J as [J|[J|[]]]; discriminate J end.
Qed.
Example C62_linked_case := C62_linked demo_env 5 c61_text (init_st []) (before xx c61_text 7) c62_words 7
  _ (whole xx c61_text) (linked_image xx c61_text) #"mov" (tl c62_words) [R16 0; Dir #"start"] ltac:(apply demo_files; reflexivity) (sane_init [])
  ltac:(part 0 C62_example) ltac:(part 1 C62_example) c62_written c62_offered (c62_fine _)
  ltac:(vm_compute; discriminate) ltac:(part 2 C62_example) ltac:(done).

Example C63_lands_case := C63_lands demo_env 5 c61_text (init_st []) (before xx c61_text 5) [#"jnz"; #"start"] 5
  _ (whole xx c61_text) (linked_image xx c61_text) #"jnz" #"start" ltac:(apply demo_files; reflexivity) (sane_init [])
  ltac:(part 0 C63_example) ltac:(part 1 C63_example) ltac:(part 2 C63_example) ltac:(part 3 C63_example) ltac:(part 4 C63_example)
  ltac:(part 5 C63_example) ltac:(part 6 C63_example) ltac:(part 7 C63_example) ltac:(discriminate) ltac:(vm_compute; discriminate)
  ltac:(part 9 C63_example) ltac:(done).
Definition c63_far : str := Demo.lines ["jz away"; ".org 0x300"; "away: nop"]%string.
Example C63_too_far_case := C63_too_far demo_env 5 c63_far (init_st []) (init_st []) [#"jz"; #"away"] 1 _ (whole xx c63_far) #"jz" #"away"
  ltac:(apply demo_files; reflexivity) (sane_init []) ltac:(part 0 C63_far) ltac:(plainly) ltac:(apply str_in_In; reflexivity) ltac:(apply is_value; reflexivity)
  ltac:(apply no_colon; reflexivity) ltac:(computes) ltac:(no_select_in) ltac:(no_ops_in) ltac:(discriminate) ltac:(vm_compute; discriminate)
  ltac:(untexted) ltac:(let a := fresh in let A := fresh in intros a A; right; split; [part 1 C63_far|]; revert a A; part 2 C63_far).
