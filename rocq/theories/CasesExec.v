(** Concrete cases of C14 to C21: every theorem is applied to an example that meets
    its hypotheses. *)
From Coq Require Import Lia.
From Verif Require Import Py PyFacts Utils Tokenizer State Assembler.
From Verif Require Import SpecUtils SpecParse SpecTok SpecSubst SpecExec Demo.
From Verif Require Import ExecFacts PropsParse PropsExec PropsData PropsMacro PropsPad CasesText.
Local Open Scope Z_scope.

Definition one : st := demo_state ["a: nop"]%string.
Ltac run := vm_compute; reflexivity.
Ltac plain_token := do 2 eexists; split; [reflexivity|split; discriminate].

(** ** Macros, labels, output *)

Example C14_expansion_case := C14_expansion demo c14_state [#"TWO"; #"FIVE"; #"x"]
  [[#"ldi"; #"5+1"]; [#"nop"]; [#"ldi"; #"x+1"]]
  (proj1 C14_example) (proj1 (proj2 C14_example)) (proj1 (proj2 (proj2 C14_example))).

Example C15_definition_case := C15_definition demo 3 (fun _ => ret tt) #"b" [] 2 one
  (set_labels one (labels one ++ [(#"b", MkLabel 1 0 None)])) ltac:(run).

Example C15_rejected_case :
  statement_assemble demo 3 (fun _ => ret tt) (Stmt KLabel [#"a"] 2) one = (one, Err (AExc LabelAlreadyDefined)) /\
  statement_assemble demo 3 (fun _ => ret tt) (Stmt KLabel [#"b!"] 2) one = (one, Err (AExc InvalidLabel)) /\
  statement_assemble demo 3 (fun _ => ret tt) (Stmt KLabel [#"12"] 2) one = (one, Err (AExc InvalidLabel)).
Proof.
  split; [|split].
  - refine (proj1 (C15_rejected demo 3 (fun _ => ret tt) #"a" [] 2 one ltac:(run)) _). eexists. run.
  - refine (proj1 (proj2 (C15_rejected demo 3 (fun _ => ret tt) #"b!" [] 2 one ltac:(run))) _ _); [run|].
    intros F. apply Forall_inv_tail, Forall_inv, SubstFacts.valid_name_char_spec in F. vm_compute in F. discriminate.
  - refine (proj2 (proj2 (C15_rejected demo 3 (fun _ => ret tt) #"12" [] 2 one ltac:(run))) _ _ _);
      [run| |eexists; run].
    repeat (apply Forall_cons; [apply SubstFacts.valid_name_char_spec; run|]). apply Forall_nil.
Qed.

Example C15_write_once_case := C15_write_once demo (fun lk => lk = dummy_linker)
  (proj1 (proj2 C15_example)) ltac:(intros m s [])
  ltac:(intros lk ->; split; intros; apply extends_refl)
  _ _ (proj2 (proj2 (proj2 C15_example))).

Example C16_append_only_case := C16_append_only demo 5 c16_text one (proj1 (proj2 (proj2 C16_example))).
Example C16_pc_exact_case := C16_pc_exact demo 5 c16_text one (proj1 (proj2 C16_example)) (proj1 C16_example).

(** Reservations. *)
Definition ram_text : str := lines ["nop"; ".ram 5"; ".db 1,2"]%string.
Ltac included :=
  let n := fresh in let t := fresh in let H := fresh in let I := fresh in
  intros n t H; cbn [demo mk_cfg c_env file_text demo_env] in H;
  destruct (str_eqb n #"inc.s"); [|discriminate]; injection H as <-;
  intros ?ss ?l ?t0 ?ops ?d H; vm_compute in H; injection H as <-;
  intros I; cbn [In] in I; repeat (destruct I as [I|I]; [discriminate I|]); contradiction.
Lemma ram_free : program_free demo moves_origin ram_text.
Proof.
  split; [|included].
  intros ss l t0 ops d T. vm_compute in T. injection T as <-. intros I. cbn [In] in I.
  repeat (destruct I as [I|I]; [try discriminate I; injection I as <- <- _; intros E; vm_compute in E;
      injection E as <-; intros [H|[H _]]; discriminate|]). contradiction.
Qed.
Example C16_pc_case := C16_pc demo 5 ram_text one (proj1 (proj2 C16_example)) ram_free.

Lemma demo_passes : forall R, passes_keep R demo.
Proof. intros R m s []. Qed.
Example C17_bytes_case := C17_bytes demo (fun lk => lk = dummy_linker) []
  demo_bytes (proj1 C17_example) (demo_passes _)
  ltac:(intros lk ->; exact dummy_bytes) _ (proj1 (proj2 (proj2 C17_example))).

(** ** Data *)

Example C18_operands_case := C18_operands demo 3 (fun _ => ret tt) #".DW" [#"$1234"; #"foo"; #"-2"] 1 D_dw 2
  (demo_state ["nop"]%string) _ _ (proj1 C18_example) ltac:(constructor) (proj1 (proj2 C18_example))
  (proj1 (proj2 (proj2 C18_example))).

Lemma demo_markers : markers_ok demo_p.
Proof. exact ex_markers. Qed.

Example C18_rejected_case := C18_rejected demo 3 (fun _ => ret tt) #".dw" [#"2"; #"foo"; #"$10000"; #"7"] 1 D_dw 2
  one [#"2"; #"foo"] [Some 2; None] #"$10000" [#"7"] (AExc (NotInBitRange 65536 16 None))
  ltac:(run) ltac:(constructor) (reads_self one [#"2"; #"foo"; #"$10000"; #"7"])
  ltac:(repeat (apply Forall2_cons; [split; [plain_token|run]|]); apply Forall2_nil)
  ltac:(plain_token) ltac:(run).

(** ** Padding *)


Example C18_literals_case := C18_literals demo 3 (fun _ => ret tt) #".dd" [#"2"; #"$1aF"] 1 D_dd 4
  one [#"2"; #"$1aF"] [2; 0x1af] ltac:(run) ltac:(constructor) demo_markers (reads_self one [#"2"; #"$1aF"])
  ltac:(apply Forall2_cons; [split; [plain_token|exists 2, true; split; [exact two|cbn; lia]]|];
        apply Forall2_cons; [split; [plain_token|exists 0x1af, false; split; [exact (proj1 C06_example)|cbn; lia]]|];
        apply Forall2_nil).

(** ** Padding *)

Definition skip : str -> M unit := fun _ => ret tt.
Definition at_257 : st := demo_state [".org $100"; "nop"; "x:"]%string.

Example C19_fill_case := C19_fill demo 3 skip #".fill" [#"3"; #"$7"] 1 at_257 #"3" 3 [#"$7"] 7
  ltac:(run) (reads_self at_257 [#"3"; #"$7"]) ltac:(run) ltac:(apply fo_given; run).
Example C19_align_case := C19_align demo 3 skip #".align" [#"$10"] 1 at_257 #"$10" 16
  ltac:(run) (reads_self at_257 [#"$10"]) ltac:(run) ltac:(lia) ltac:(cbn; lia).
Example C19_goto_case := C19_goto demo 3 skip #".goto" [#"$104"; #"7"] 1 at_257 #"$104" 260 [#"7"] 7 D_goto
  ltac:(left; reflexivity) ltac:(run) (reads_self at_257 [#"$104"; #"7"]) ltac:(run)
  ltac:(apply fo_given; run) ltac:(vm_compute; discriminate).
Example C19_upto_case := C19_goto demo 3 skip #".upto" [#"3"] 1 at_257 #"3" 3 [] 0 D_upto
  ltac:(right; reflexivity) ltac:(run) (reads_self at_257 [#"3"]) ltac:(run)
  ltac:(apply fo_default; cbn; lia) ltac:(vm_compute; discriminate).
Example C19_goto_overlap_case := C19_goto_overlap demo 3 skip #".goto" [#"0"] 1 at_257 #"0" 0 [] 0 D_goto
  ltac:(left; reflexivity) ltac:(run) (reads_self at_257 [#"0"]) ltac:(run)
  ltac:(apply fo_default; cbn; lia) ltac:(run).
Example C19_ram_case := C19_ram demo 3 skip #".ram" [#"5"] 1 at_257 #"5" 5
  ltac:(run) (reads_self at_257 [#"5"]) ltac:(run).
Example C19_names_rejected_case := C19_names_rejected demo 3 skip #".align" [#"x"] 1 at_257 #"x" [] D_align
  ltac:(right; left; reflexivity) ltac:(run) (reads_self at_257 [#"x"]) ltac:(run).

(** ** Regions *)

Definition region_at : st := fst (exec demo 5 [Stmt KDirective [#".org"; #"$10"; #"$1f"] 1] one).
Definition region_full : st := fst (exec demo 5 c20_body region_at).

Example C20_opened_case := C20_opened demo 5 #".org" [#"$10"; #"$1f"] 1 one region_at #"$10" [#"$1f"] 16 31
  ltac:(run) (reads_self one [#"$10"; #"$1f"]) ltac:(run)
  ltac:(right; eexists; split; [reflexivity|run]) ltac:(run).
Example C20_region_case := C20_region demo 5 #".org" [#"$10"; #"$1f"] 1 c20_body #".org" [#"$100"] 9
  one region_at region_full #"$10" #"$1f" 16 31 #"$100" [] 256 0
  ltac:(run) ltac:(run) ltac:(cbn; lia) (proj1 C20_example) c20_free
  (reads_self one [#"$10"; #"$1f"]) ltac:(run) ltac:(run) ltac:(lia) ltac:(run) ltac:(run)
  (reads_self region_full [#"$100"]) ltac:(run) ltac:(left; split; reflexivity) ltac:(left; reflexivity)
  ltac:(lia) ltac:(vm_compute; discriminate).
Example C20_overlap_case := C20_overlap demo 5 #".org" [#"$11"] 9 region_full #"$11" [] 17 0
  ltac:(run) (reads_self region_full [#"$11"]) ltac:(run) ltac:(left; split; reflexivity) ltac:(run) ltac:(run).
Example C20_end_case := C20_end demo 5 (lines [".org $10 $14"; "nop"]%string)
  [Stmt KDirective [#".org"; #"$10"; #"$14"] 1; Stmt KInstruction [#"nop"] 2] one
  (fst (exec demo 5 [Stmt KDirective [#".org"; #"$10"; #"$14"] 1; Stmt KInstruction [#"nop"] 2] one))
  ltac:(run) ltac:(run) ltac:(cbn; lia) ltac:(run) ltac:(vm_compute; discriminate).

(** ** Repetition *)

Definition repeating : st := fst (exec demo 5 [Stmt KDirective [#".repeat"; #"3"] 1] one).
Definition repeated : st := fst (exec demo 5 c20_body repeating).

Example C21_copies_case := C21_copies demo 5 #".repeat" [#"3"] 1 c20_body #".endrepeat" [] 9 one #"3" 3
  repeating repeated ltac:(run) ltac:(run) ltac:(run) (proj1 C21_example) c21_free
  (reads_self one [#"3"]) ltac:(run) ltac:(lia) ltac:(run) ltac:(run).
Example C21_pc_case := C21_pc demo 5 #".repeat" [#"3"] 1 c20_body #".endrepeat" [] 9 one #"3" 3
  repeating repeated ltac:(run) ltac:(run) ltac:(run) (proj1 C21_example) (proj1 C20_example) c21_free c20_free
  (reads_self one [#"3"]) ltac:(run) ltac:(lia) ltac:(run) ltac:(run).
Example C21_nested_case := C21_nested demo 5 #".repeat" [#"2"] 2 repeating _ ltac:(run) ltac:(run).
Example C21_unopened_case := C21_unopened demo 5 #".endrepeat" [] 2 one ltac:(run) ltac:(run).
