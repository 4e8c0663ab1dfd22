(** Concrete cases of C64 to C66: every theorem is applied to a program for the PowerPC that
    meets its hypotheses. *)
From Coq Require Import Lia.
From Verif Require Import Reach CasesText CasesMos.
From Verif Require Import Py PyFacts Utils Tokenizer State Assembler SpecUtils SpecParse SpecSubst SpecExec SpecLink
  SpecCpu SpecPlace Instr Ppc CpuFacts Demo PropsPlace PropsMosLink PropsFit FitFacts.
From Verif Require Import SpecPpc PpcFacts PropsPpc.
Local Open Scope Z_scope.

Definition c64_words : list str := [#"addi"; #"r3"; #"r4"; #"-2"].
Definition c64_s : st := before pp c64_text 2.
Definition c64_form : Z * list field := (code 14 0 0, [RT; RA0; SI]).
Example C64_encoding_case := proj2 (C64_encoding demo_env 5 c64_words 2 c64_s (after pp (Stmt KInstruction c64_words 2) c64_s) #"addi" (tl c64_words)
  ltac:(part 0 C64_example) ltac:(part 2 C64_example))
  ltac:(exists c64_form, 0x3864FFFE, []; split; [part 1 C64_example|split; [part 3 C64_example|computes]]).
Example C64_encoded_case := proj1 (C64_encoding demo_env 5 c64_words 2 c64_s (after pp (Stmt KInstruction c64_words 2) c64_s) #"addi" (tl c64_words)
  ltac:(part 0 C64_example) ltac:(part 2 C64_example)) ltac:(done).
Example C64_unambiguous_case := C64_unambiguous #"addi" c64_s c64_form c64_form (tl c64_words) _ _ _ _
  ltac:(part 1 C64_example) ltac:(part 1 C64_example) ltac:(part 3 C64_example) ltac:(part 3 C64_example).
Example C64_rejected_case := C64_rejected demo_env (init_st []) _ #"add" _ ltac:(part 0 C64_wrong) ltac:(part 1 C64_wrong).

Definition c65_words : list str := [#"li"; #"r8"; #"top"].
Example C65_linked_case := C65_linked demo_env 5 c64_text (init_st []) (before pp c64_text 5) c65_words 5
  _ (whole pp c64_text) (linked_image pp c64_text) #"li" (tl c65_words) (code 14 0 0, [RT; SI]) 0x39000000 _ ltac:(apply demo_files; reflexivity) (sane_init [])
  ltac:(part 0 C65_example) ltac:(part 1 C65_example) ltac:(part 2 C65_example) ltac:(apply not_dev; computes) ltac:(part 3 C65_example)
  ltac:(cbn; lia) ltac:(part 4 C65_example) ltac:(done).

Definition c66_words : list str := [#"bc"; #"12"; #"2"; #"top"].
Example C66_lands_case := C66_lands demo_env 5 c64_text (init_st []) (before pp c64_text 7) c66_words 7
  _ (whole pp c64_text) (linked_image pp c64_text) #"bc" [#"12"; #"2"] #"top" (code 16 0 0) [BO; BI] Distance _ _ 0x41820000 _ ltac:(apply demo_files; reflexivity) (sane_init [])
  ltac:(part 0 C66_example) ltac:(part 1 C66_example) ltac:(part 2 C66_example) ltac:(left; reflexivity) ltac:(part 3 C66_example)
  ltac:(cbn; lia) ltac:(part 4 C66_example) ltac:(part 5 C66_example) ltac:(part 6 C66_example) ltac:(discriminate)
  ltac:(part 8 C66_example) ltac:(exists 0x405; computes) ltac:(done).

Definition c66_s : st := before pp c66_far 1.
Lemma c66_encodes : encodes c66_s (code 16 0 0 + cond_code 4 2, [] ++ [BD]) ([] ++ [#"far"]) 0x40820000 [ppc_ref #"far" BD (pc c66_s) quarter].
Proof.
  exists [0]. split; [|computes]. cbn [snd app]. apply (r_cons _ BD _ _ _ 0 _ [_] []); [|constructor].
  apply r_distance. apply n_name; [apply is_plain; computes|computes].
Qed.
Example C66_too_far_case := C66_too_far demo_env 5 c66_far (init_st []) c66_s [#"bne"; #"far"] 2 _ (whole pp c66_far)
  #"bne" [] #"far" (code 16 0 0 + cond_code 4 2) [] _ _ 0x40820000 _ ltac:(apply demo_files; reflexivity) (sane_init [])
  ltac:(part 0 C66_far) ltac:(part 1 C66_far) ltac:(part 2 C66_far) c66_encodes ltac:(cbn; lia)
  ltac:(intros []; computes) ltac:(no_select_in) ltac:(no_ops_in) ltac:(discriminate) ltac:(untexted) ltac:(part 3 C66_far) ltac:(part 4 C66_far).
