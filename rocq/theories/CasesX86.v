(** Concrete cases of C67 to C70: every theorem is applied to a program for the x86 that
    meets its hypotheses. *)
From Coq Require Import Lia.
From Verif Require Import Reach CasesText CasesMos.
From Verif Require Import Py PyFacts Utils Tokenizer State Assembler SpecUtils SpecParse SpecSubst SpecExec SpecLink
  SpecCpu SpecPlace X86 CpuFacts Demo PropsPlace PropsMosLink PropsFit FitFacts X86Facts FitX86.
From Verif Require Import SpecX86 X86Enc X86Link PropsX86.
Local Open Scope Z_scope.

Definition c67_words : list str := [#"add"; #"ax"; #"["; #"bx"; #"+"; #"si"; #"]"].
Example C67_encoding_case := C67_encoding demo_env s16 c67_words #"add" (tl c67_words) [0x03; 0x00] []
  ltac:(part 0 C67_example) ltac:(vm_compute; discriminate) ltac:(part 2 C67_example) ltac:(part 3 C67_example).

Definition c68_words : list str := [#"mov"; #"ax"; #"start"].
Example C68_linked_case := C68_linked demo_env 5 c68_text (init_st []) (before xx c68_text 3) c68_words 3
  _ (whole xx c68_text) (linked_image xx c68_text) #"mov" (tl c68_words) [0xB8; 0; 0] [ref #"start" 2 16 1 0]
  ltac:(apply demo_files; reflexivity) (sane_init [])
  ltac:(part 0 C68_example) ltac:(part 1 C68_example) ltac:(left; vm_compute; reflexivity) ltac:(vm_compute; discriminate)
  ltac:(part 3 C68_example) ltac:(part 2 C68_example) ltac:(done).

Example C69_lands_case := C69_lands demo_env 5 c68_text (init_st []) (before xx c68_text 4) [#"jnz"; #"start"] 4
  _ (whole xx c68_text) (linked_image xx c68_text) #"jnz" #"start" ltac:(apply demo_files; reflexivity) (sane_init [])
  ltac:(part 0 C69_example) ltac:(part 1 C69_example) ltac:(part 2 C69_example) ltac:(part 3 C69_example) ltac:(left; vm_compute; reflexivity)
  ltac:(part 5 C69_example) ltac:(part 6 C69_example) ltac:(part 7 C69_example) ltac:(discriminate) ltac:(vm_compute; discriminate)
  ltac:(part 2 C68_example) ltac:(done).
Definition c69_far : str := Demo.lines [".bits 16"; "jz away"; ".org 0x9000"; "away: nop"]%string.
Example C69_too_far_case := C69_too_far demo_env 5 c69_far (init_st []) s16 [#"jz"; #"away"] 2 _ (whole xx c69_far) #"jz" #"away"
  ltac:(apply demo_files; reflexivity) (sane_init []) ltac:(part 0 C69_far) ltac:(plainly) ltac:(part 1 C69_far) ltac:(apply is_value; reflexivity)
  ltac:(left; reflexivity) ltac:(computes) ltac:(no_select_in) ltac:(no_ops_in) ltac:(discriminate) ltac:(vm_compute; discriminate)
  ltac:(untexted) ltac:(part 2 C69_far).

Example C70_modes_case := C70_modes demo_env [] _ ltac:(part 0 C70_example).
Example C70_bits_case := C70_bits demo_env 5 1 (init_st []) (set_x86_bits (init_st []) 32) #".Bits" #"0x20" [] #"0x20" []
  ltac:(part 2 C70_example) ltac:(part 4 C70_example).
