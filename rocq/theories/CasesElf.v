(** Concrete cases of C33, C34, C35, C39 and C71: every theorem is applied to an example
    that meets its hypotheses. *)
From Coq Require Import Lia.
From Verif Require Import Py PyFacts Utils Tokenizer State Assembler Instr Elf Mos6502 Platform ElfPlat.
From Verif Require Import SpecUtils SpecParse SpecTok SpecSubst SpecExec SpecSim SpecLink SpecElf SpecPlace SpecCpu SpecPlat Demo.
From Verif Require Import ExecFacts ElfFacts PropsTok PropsExec PropsPad PropsMacro PropsRuns PropsLink PropsElf PropsFit PropsEplat.
From Verif Require Import CasesText CasesExec CasesLink.
Local Open Scope Z_scope.

(** ** ELF files *)

Definition elf_case : st := elf_state x86_64_elf64 c33_source.
Lemma elf_case_file : produces demo x86_64_elf64 elf_case (elf_file x86_64_elf64 elf_case).
Proof. apply (C33_example x86_64_elf64). right. left. reflexivity. Qed.

Example C33_header_case := C33_header demo x86_64_elf64 elf_case _ elf_case_file.
Example C33_layout_case := C33_layout demo x86_64_elf64 elf_case _ elf_case_file.
Example C33_sections_case := C33_sections demo x86_64_elf64 elf_case _ 1 #".data" (MkSection 4 4 #"RW" (Some 6) (Some 2))
  elf_case_file ltac:(run).
Example C33_code_case := C33_code demo x86_64_elf64 elf_case _ (fst (link demo dummy_linker elf_case)) elf_case_file ltac:(run).
Example C34_section_names_case := C34_section_names demo x86_64_elf64 elf_case _ 1 #".data" _ elf_case_file ltac:(run).
Example C34_table_names_case := C34_table_names demo x86_64_elf64 elf_case _ elf_case_file.
Example C34_symbols_case := C34_symbols demo x86_64_elf64 elf_case _ 1 #"there" _ elf_case_file ltac:(run).

Definition elf_program : st := fst (assemble demo 5 (lines c33_source) (init_st [])).
Example C33_program_case : forall e, In e [i386_elf32; x86_64_elf64; ppc_elf32] -> _ :=
  fun e I =>
    let X := C33_program_example e I in
    C33_program demo 5 (lines c33_source) [] (init_st []) elf_program e _ 1 #".data" _
      (proj1 X) (proj1 (proj2 X)) (proj1 (proj2 (proj2 X))) (proj1 (proj2 (proj2 (proj2 X))))
      (proj1 (proj2 (proj2 (proj2 (proj2 X))))) ltac:(vm_compute; reflexivity).

(** The scripts. *)
Section Platforms.
  Context (main : nat -> list str -> script) (c : cfg) (e : elf) (is64 be : bool) (machine : Z)
    (P : elf_platform c71_env main c e is64 be machine).
  Let n := c71_source machine.
  Let s := c71_state c n.
  Let file := c71_file c e (with_elf e s).
  Example C71_header_case := C71_header c71_env main c e is64 be machine 5 [n] s file P
    (proj1 (C71_example main c e is64 be machine P)) (proj1 (proj2 (C71_example main c e is64 be machine P))).
  Example C71_code_case := C71_code c71_env main c e is64 be machine 5 [n] s file (fst (link c dummy_linker s)) P
    (proj1 (C71_example main c e is64 be machine P)) (proj1 (proj2 (C71_example main c e is64 be machine P)))
    ltac:(pose proof (proj1 (proj2 (proj2 (proj2 (proj2 (proj2 (C71_example main c e is64 be machine P))))))) as E;
          cbv zeta in E; fold n s in E; rewrite <- E; apply surjective_pairing).
End Platforms.
Example C71_sections_case := C71_sections c71_env _ _ _ _ _ _ 5 _ _ _ 1 #".data" _ (ep_ppc c71_env)
  (proj1 (C71_example _ _ _ _ _ _ (ep_ppc c71_env))) (proj1 (proj2 (C71_example _ _ _ _ _ _ (ep_ppc c71_env))))
  (proj1 (proj2 (proj2 (proj2 (proj2 (C71_example _ _ _ _ _ _ (ep_ppc c71_env))))))) ltac:(run).

(** ** Logging *)

Example C35_assemble_case := C35_assemble demo 5 c16_text one true (demo_oblivious true false).
Example C35_link_case := C35_link demo dummy_linker code true (demo_oblivious true false) (dummy_oblivious true false).
Example C35_removed_case := C35_removed demo 5 #".log" [#"on"] 2 [Stmt KInstruction [#"nop"] 1] [Stmt KInstruction [#"ldi"; #"x"] 3]
  one (demo_oblivious true false) ltac:(run).
