(** Concrete cases of C45 to C48, C52 to C55 and C57: every theorem about the consoles is
    applied to a program that meets its hypotheses. *)
From Coq Require Import Lia.
From Verif Require Import Reach CasesText CasesMos.
From Verif Require Import Py PyFacts Utils Tokenizer State Assembler SpecUtils SpecParse SpecSubst SpecExec SpecLink
  SpecCpu SpecPlace SpecPlat Instr Mos6502 Thumb Mips32 Lr35902 Z80 Mc68000 Platform CpuFacts Demo PropsPlace PropsMosLink PropsFit FitFacts FitMos PropsExec PropsPlat PropsM68.
Local Open Scope Z_scope.

(** One source file that assembles and links. *)
Lemma builds_one : forall c defs fuel lk name text s1 s2, file_text (c_env c) name = Some text ->
  assemble c fuel text (init_st defs) = (s1, Ok tt) -> link c lk s1 = (s2, Ok tt) -> builds c defs fuel lk [name] s2 (assembled s2).
Proof. intros c defs fuel lk name text s1 s2 T A L. exists s1. split; [|split; [exact L|reflexivity]]. apply (af_file _ _ _ _ _ _ _ _ T A). constructor. Qed.

(** ** C45 *)
Example C45_header_case := C45_header demo_env (gbc_state c45_text) (gbc_linked (gbc_state c45_text)) ltac:(part 3 C45_example).
Example C45_rom_case := C45_rom demo_env 5 c45_text (fst (exec gbc 5 (firstn 1 (stmts_of c45_text)) (init_st gb_defines))) [] 2 _
  (gbc_state c45_text) (gbc_linked (gbc_state c45_text))
  ltac:(part 0 C45_example) ltac:(left; vm_compute; reflexivity) ltac:(part 2 C45_example) ltac:(part 3 C45_example).

(** ** C46, C52, C47 *)
Notation files_of run := (fst run).
Lemma rom_files : forall c t, c_env c = rom_env t -> byte_files c.
Proof. intros c t E n b H. rewrite E in H. discriminate H. Qed.
Definition c46_text : str := Demo.lines [".fill $200"; "nop"; ".db $12,$34,$56"]%string.
Definition c46_cfg : cfg := mos6502 (rom_env c46_text).
Example C46_checksum_case := C46_checksum c46_cfg 5 [#"a.s"; #"out"] (files_of (genesis_main c46_cfg 5 [#"a.s"; #"out"]))
  (proj1 (mos_fits _)) ltac:(apply (rom_files _ c46_text); reflexivity) ltac:(done).
Example C46_succeeds_case := C46_succeeds c46_cfg 5 #"a.s" #"out" [] (linked_image c46_cfg c46_text) _
  (proj1 (mos_fits _)) ltac:(apply (rom_files _ c46_text); reflexivity) (builds_one c46_cfg [] 5 dummy_linker #"a.s" c46_text _ _ ltac:(reflexivity) ltac:(done) ltac:(done)).
Definition c46_source : str := Demo.lines [".fill $200"; "start: move.w #$1234,d0"; "jmp start"]%string.
Example C46_genesis_case := C46_genesis c46_rom 5 [#"a.s"; #"out"] (files_of (genesis_main (mc68000 c46_rom) 5 [#"a.s"; #"out"]))
  ltac:(apply (rom_files _ c46_source); reflexivity) ltac:(done).
Example C46_genesis_succeeds_case := C46_genesis_succeeds c46_rom 5 #"a.s" #"out" [] (linked_image (mc68000 c46_rom) c46_source) _
  ltac:(apply (rom_files _ c46_source); reflexivity) (builds_one (mc68000 c46_rom) [] 5 dummy_linker #"a.s" c46_source _ _ ltac:(reflexivity) ltac:(done) ltac:(done)).

Definition c52_text : str := Demo.lines [".fill 0xA0"; ".db ""HELLO"""; ".fill 0x1B"; "swi 1"]%string.
Definition c52_env : env := rom_env c52_text.
Example C52_checksum_case := C52_checksum c52_env 5 [#"a.s"; #"out"] (files_of (gba_main c52_env 5 [#"a.s"; #"out"])) ltac:(done).
Example C52_succeeds_case := C52_succeeds c52_env 5 #"a.s" #"out" [] (linked_image (thumb c52_env) c52_text) _
  (builds_one (thumb c52_env) [] 5 dummy_linker #"a.s" c52_text _ _ ltac:(reflexivity) ltac:(done) ltac:(done)) ltac:(vm_compute; discriminate).

Example C47_file_case := C47_file psx_env 5 [#"a.s"; #"out"] (files_of (psx_main psx_env 5 [#"a.s"; #"out"])) ltac:(done).

(** ** C48 *)
Definition c48_tile : str := dquote :: #"a.png" ++ [dquote].
Example C48_gameboy_case := C48_gameboy c48_env 5 c48_tile 1 (init_st gb_defines) c48_tile #"a.png" c48_img
  ltac:(part 0 C48_example) ltac:(part 1 C48_example) ltac:(reflexivity) ltac:(vm_compute; discriminate) ltac:(vm_compute; discriminate).
(** Its conclusion for that picture: it is accepted, and the bytes show it. *)
Example C48_gameboy_shown := proj2 C48_gameboy_case ltac:(part 2 C48_example).
Definition c48_table : image := MkImage true 128 128 (fun x y => (x + y) mod 4).
Definition c48_table_env : env := Env (fun _ => None) (fun _ => None) (fun _ => None) (fun _ => None) (fun n => if str_eqb n #"a.png" then Some c48_table else None).
Lemma c48_reads : forall d, subst_token d c48_tile = c48_tile -> reads (init_st d) [c48_tile] [c48_tile].
Proof. intros d E. pose proof (reads_self (init_st d) [c48_tile]) as R. cbn [map] in R. change (defines (init_st d)) with d in R. rewrite E in R. exact R. Qed.
Example C48_nes_case := C48_nes c48_table_env 5 c48_tile 1 (init_st nes_defines) c48_tile #"a.png" c48_table
  ltac:(apply c48_reads; vm_compute; reflexivity) ltac:(part 1 C48_example) ltac:(reflexivity) ltac:(vm_compute; discriminate) ltac:(vm_compute; discriminate).
Example C48_nes_shown := proj2 C48_nes_case
  ltac:(split; [reflexivity|split; [reflexivity|split; [reflexivity|intros x y _ _; cbn [c48_table img_pixel]; pose proof (Z.mod_pos_bound (x + y) 4); lia]]]).
Definition c48_many : image := MkImage true 16 8 (fun x y => (x + y) mod 16).
Definition c48_many_env : env := Env (fun _ => None) (fun _ => None) (fun _ => None) (fun _ => None) (fun n => if str_eqb n #"a.png" then Some c48_many else None).
Example C48_sms_case := C48_sms c48_many_env 5 c48_tile 1 (init_st sms_defines) c48_tile #"a.png" c48_many
  ltac:(apply c48_reads; vm_compute; reflexivity) ltac:(part 1 C48_example) ltac:(reflexivity) ltac:(vm_compute; discriminate) ltac:(vm_compute; discriminate).
Example C48_sms_shown := proj2 C48_sms_case
  ltac:(split; [reflexivity|split; [reflexivity|split; [reflexivity|intros x y _ _; cbn [c48_many img_pixel]; pose proof (Z.mod_pos_bound (x + y) 16); lia]]]).

(** ** C53 *)
Example C53_written_case := C53_written cli [] 5 dummy_linker [] [] [#"a.s"; #"b.s"] #"out" _ _ ltac:(part 0 C53_example).
Example C53_written_fails := C53_written cli [] 5 dummy_linker [] [] [#"a.s"; #"bad.s"] #"out" _ _ ltac:(part 1 C53_example).
Definition c53_bad : env := rom_env (Demo.lines ["swi 1"; ".dw missing"]%string).
Example C53_scripts_case := proj1 (proj2 (C53_scripts cli c53_bad 5 [#"a.s"; #"out"] [] (AExc (UnknownLabel #"missing")))) ltac:(vm_compute; reflexivity).

(** ** C54, C55 *)
Definition c54_text : str := Demo.lines ["zp:"; ".org $C0DE"; "start: jmp start"]%string.
Example C54_symbols_case := C54_symbols (rom_env c54_text) 5 [#"a.s"; #"o"] (files_of (nes_main (rom_env c54_text) 5 [#"a.s"; #"o"])) ltac:(done).
(** Its labels meet the condition on names. *)
Example C54_names : Forall (fun n => no_select n /\ no_ops n /\ n <> []) [#"zp"; #"start"].
Proof. apply Forall_cons; [|apply Forall_cons; [|apply Forall_nil]]; (split; [no_select_in|split; [no_ops_in|discriminate]]). Qed.
Example C55_header_case := proj2 (C55_header demo_env 5 [] 1 (init_st nes_defines)) eq_refl.

(** ** C57 *)
Example C57_gameboy_case := C57_gameboy demo_env 5 [#"ld"; #"a"; #"b"] #"ld" [#"a"; #"b"] 1 (init_st []) ltac:(plainly).
Example C57_nes_case := C57_nes demo_env 5 [#"lda"; #"#1"] #"lda" [#"#1"] 1 (init_st []) ltac:(plainly).
Example C57_sms_case := C57_sms demo_env 5 _ #"out" _ 1 (init_st sms_defines) ltac:(part 0 C57_example).
