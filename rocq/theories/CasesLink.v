(** Concrete cases of C22 to C32: every theorem is applied to an example that meets
    its hypotheses. *)
From Coq Require Import Lia Permutation.
From Verif Require Import Py PyFacts Utils Tokenizer State Assembler.
From Verif Require Import SpecUtils SpecParse SpecTok SpecSubst SubstFacts SpecExec SpecSim SpecLink Demo.
From Verif Require Import ExecFacts PropsParse PropsExec PropsPad PropsRuns PropsLink CasesText CasesExec.
Local Open Scope Z_scope.

(** ** Linking *)

Definition code : st := demo_state [".org $1000"; "ldi x+1"; "bra x"; "nop"; "x:"]%string.
Definition linked : st := fst (link demo dummy_linker code).
Definition ref1 : Z * labeldata := (1, LabelData #"x+1" 2 16 0 1 1 None None None).
Definition ref2 : Z * labeldata := (4, LabelData #"x" 1 8 0x1005 1 1 None None None).

Lemma code_refs : labels_addresses code = [ref1; ref2].
Proof. run. Qed.
Lemma code_links : link demo dummy_linker code = (linked, Ok tt).
Proof. run. Qed.
Ltac ref_fine := unfold ref_ok; (split; [vm_compute; discriminate|]); (split; [vm_compute; discriminate|]);
  (split; [let H := fresh in intros ? H; vm_compute in H; discriminate H|]).
Lemma code_fields : fields_only (labels_addresses code).
Proof.
  rewrite code_refs.
  repeat (apply Forall_cons; [split; [ref_fine; left; reflexivity|reflexivity]|]). apply Forall_nil.
Qed.
Lemma code_ok : Forall ref_ok (labels_addresses code).
Proof. apply fields_only_ok, code_fields. Qed.

Example C22_image_case := C22_image demo code linked demo_no_passes code_ok code_links.

(** The changes of the two references. *)
Definition changes : list (list (Z * change)) :=
  [field_changes false 1 2 0x1007; field_changes false 4 1 1].
Lemma code_changes : Forall2 (ref_changes demo_p (labels code)) (labels_addresses code) changes.
Proof.
  rewrite code_refs. apply Forall2_cons; [|apply Forall2_cons; [|apply Forall2_nil]].
  - apply (rc_field demo_p (labels code) 1 (snd ref1) 0x1007); [reflexivity|].
    exists 0x1007, 0x1007. split; [apply tg_absolute; [reflexivity|run]|]. split; [apply Z.divide_1_l|].
    split; [unfold in_range; cbn; lia|reflexivity].
  - apply (rc_field demo_p (labels code) 4 (snd ref2) 1); [reflexivity|].
    exists 0x1006, 1. split; [apply tg_relative; [discriminate|run|run]|]. split; [apply Z.divide_1_l|].
    split; [unfold in_range; cbn; lia|reflexivity].
Qed.
Example C22_links_case := C22_links demo code changes demo_no_passes code_ok code_changes
  ltac:(vm_compute; repeat constructor; discriminate).

Lemma field_ref1 : forall i, covers ref1 i -> i = 1 \/ i = 2.
Proof. unfold covers. cbn. lia. Qed.
Lemma field_ref2 : forall i, covers ref2 i -> i = 4.
Proof. unfold covers. cbn. lia. Qed.

Example C22_outside_case : nth_error (assembled linked) 3 = nth_error (assembled code) 3.
Proof.
  apply (C22_outside demo code linked 3 demo_no_passes code_fields code_links).
  rewrite code_refs. intros r [<-|[<-|[]]] C; [apply field_ref1 in C|apply field_ref2 in C]; lia.
Qed.

Example C22_field_case := C22_field demo code linked [] 1 (snd ref1) [ref2] demo_no_passes code_fields
  ltac:(vm_compute; repeat constructor; discriminate) ltac:(cbn; lia) code_refs
  ltac:(intros r i [<-|[]] C1 C2; apply field_ref2 in C1; apply field_ref1 in C2; lia) code_links.

Definition texts : st := demo_state [".org $1000"; "nop"; "x:"; ".dw_to_ascii x"; "ldi x"]%string.
Definition text_ref : labeldata := LabelData #"x" 2 16 0 0 1 None None (Some (to_str_hook 5)).
Definition after_text : Z * labeldata := (7, LabelData #"x" 2 16 0 1 1 None None None).
Lemma text_refs : labels_addresses texts = [(1, text_ref); after_text].
Proof. reflexivity. Qed.
Lemma texts_ok : Forall ref_ok (labels_addresses texts).
Proof.
  rewrite text_refs. apply Forall_cons; [ref_fine; right; eexists; reflexivity|].
  apply Forall_cons; [ref_fine; left; reflexivity|apply Forall_nil].
Qed.
Lemma texts_link : link demo dummy_linker texts = (fst (link demo dummy_linker texts), Ok tt).
Proof.
  assert (E : snd (link demo dummy_linker texts) = Ok tt) by run.
  rewrite <- E. apply surjective_pairing.
Qed.
Example C22_text_case : decimal (slice 1 5 (assembled (fst (link demo dummy_linker texts)))) = 4097.
Proof.
  apply (C22_text demo texts (fst (link demo dummy_linker texts)) [] 1 text_ref [after_text] 5 4097 4097
           demo_no_passes texts_ok text_refs eq_refl); [lia|apply tg_absolute; [reflexivity|run]|cbn; lia| |exact texts_link].
  intros r ch i k [<-|[]] RC I. apply (changes_covered _ _ after_text ch i k eq_refl RC) in I.
  unfold covers in I. cbn in I. lia.
Qed.

Example C23_fits_case := C23_fits demo code linked 4 (snd ref2) demo_no_passes code_ok code_links
  ltac:(rewrite code_refs; right; left; reflexivity) eq_refl.

(** A branch that is too far after a reference that is fine. *)
Definition far : st := demo_state ["x:"; "ldi x"; ".fill 124"; "bra x"]%string.
Definition near_ref : Z * labeldata := (1, LabelData #"x" 2 16 0 1 1 None None None).
Definition far_ref : labeldata := LabelData #"x" 1 8 129 1 1 None None None.
Lemma far_refs : labels_addresses far = [near_ref; (128, far_ref)].
Proof. run. Qed.
Lemma near_changes : Forall2 (ref_changes demo_p (labels far)) [near_ref] [field_changes false 1 2 0].
Proof.
  apply Forall2_cons; [|apply Forall2_nil].
  apply (rc_field demo_p (labels far) 1 (snd near_ref) 0); [reflexivity|].
  exists 0, 0. split; [apply tg_absolute; [reflexivity|run]|]. split; [apply Z.divide_1_l|].
  split; [unfold in_range; cbn; lia|reflexivity].
Qed.
Example C23_faults_case := C23_faults demo far [near_ref] [field_changes false 1 2 0] 128 far_ref []
  (NotInBitRange (-129) 8 (Some #"x")) demo_no_passes
  ltac:(rewrite far_refs; repeat (apply Forall_cons; [ref_fine; left; reflexivity|]); apply Forall_nil)
  far_refs near_changes ltac:(vm_compute; repeat constructor; discriminate)
  ltac:(apply (f_range demo_p (labels far) far_ref 0 (-129));
        [reflexivity|apply tg_relative; [discriminate|run|run]|discriminate|apply Z.divide_1_l|discriminate
        |unfold in_range; cbn; lia]).

Example C24_idempotent_case := C24_idempotent demo code linked demo_no_passes code_ok code_links.

Definition dangling : st := demo_state ["x:"; "ldi x"; "ldi <foo+1"]%string.
Definition dangling_ref : labeldata := LabelData #"<foo+1" 2 16 0 1 1 None None None.
Lemma dangling_refs : labels_addresses dangling = [near_ref; (4, dangling_ref)].
Proof. run. Qed.
Lemma dangling_ok : Forall ref_ok (labels_addresses dangling).
Proof. rewrite dangling_refs. repeat (apply Forall_cons; [ref_fine; left; reflexivity|]). apply Forall_nil. Qed.
Lemma x_is_0 : forall s, dget str_eqb (labels s) #"x" = Some (MkLabel 0 0 None) ->
  Forall2 (ref_changes demo_p (labels s)) [near_ref] [field_changes false 1 2 0].
Proof.
  intros s H. apply Forall2_cons; [|apply Forall2_nil].
  apply (rc_field demo_p (labels s) 1 (snd near_ref) 0); [reflexivity|].
  exists 0, 0. split; [|split; [apply Z.divide_1_l|split; [unfold in_range; cbn; lia|reflexivity]]].
  apply tg_absolute; [reflexivity|].
  exact (proj2 (C07_label_formula_left_to_right demo_p (labels s) [] #"x" 0 0 [] 0
    selected_nothing ltac:(no_select_in) ltac:(no_ops_in) ltac:(discriminate) ltac:(constructor)
    ltac:(eexists; split; [exact H|reflexivity]) ltac:(rewrite nothing; constructor)) eq_refl).
Qed.
Example C25_reported_case := C25_reported demo dangling 4 dangling_ref #"foo" demo_no_passes dangling_ok
  ltac:(rewrite dangling_refs; right; left; reflexivity) (proj1 (proj2 C25_example)) ltac:(run).
Example C25_error_case := C25_error demo dangling [near_ref] [field_changes false 1 2 0] 4 dangling_ref [] #"foo"
  demo_no_passes dangling_ok dangling_refs (x_is_0 dangling ltac:(run))
  ltac:(vm_compute; repeat constructor; discriminate) (proj1 (proj2 C25_example)) ltac:(run).
Example C25_defined_case := C25_defined demo code linked 1 (snd ref1) #"x" demo_no_passes code_ok code_links
  ltac:(rewrite code_refs; left; reflexivity)
  ltac:(exists [], #"+1"; split; [reflexivity|]; split; [constructor|]; split; [no_select_in|];
        split; [no_ops_in|]; split; [discriminate|]; right; exists "+"%char, #"1"; split; [reflexivity|left; reflexivity]).

Definition forth : st := demo_state ["x:"; "ldi x"; "ldi y"; "y:"]%string.
Definition back : st := set_labels_addresses (set_labels forth (rev (labels forth))) (rev (labels_addresses forth)).
Example C26_order_case := C26_order demo forth back (fst (link demo dummy_linker forth)) demo_no_passes
  ltac:(assert (E : labels_addresses forth = [near_ref; (4, LabelData #"y" 2 16 0 1 1 None None None)]) by run;
        rewrite E; repeat (apply Forall_cons; [split; [ref_fine; left; reflexivity|reflexivity]|]); apply Forall_nil)
  eq_refl (proj1 C26_example) (Permutation_rev (labels_addresses forth)) ltac:(run).

(** ** Pieces and letter case *)

Definition c27_a : str := lines [".section code RX"; ".macro two x"; "ldi x"; "nop"; ".endmacro"; "x:"]%string.
Definition c27_b : str := lines ["two y"; "y: nop"]%string.
Example C27_pieces_case := C27_pieces demo 5 c27_a c27_b _ _ one (demo_oblivious false true) ltac:(cbn; lia)
  ltac:(apply plain_source; run) ltac:(run) ltac:(intros _; run).

(** bra does not look at its mnemonic. *)
Example C29_instructions_case := C29_instructions demo 3 skip #"BrA" #"bra" [#"a"] 1 one eq_refl eq_refl ltac:(run)
  (untouched_nil _) (untouched_nil _)
  ltac:(intros k f o s H; apply demo_handler in H;
        destruct H as [H|[H|[H|[H|H]]]]; try discriminate H; injection H as ->; reflexivity).
Example C29_directives_case := C29_directives demo 3 skip #".dB" #".Db" [#"1"] 1 one eq_refl eq_refl
  ltac:(intros k f o s H; exfalso; apply dget_In in H; exact (demo_directives f H)).

(** ** Instructions, macros, sections *)

Example C28_handler_case := C28_handler demo 3 skip [#"ldi"; #"$1234"] 1 one #"ldi" [#"$1234"] demo_ldi one
  (Ok (Some [1; 0x34; 0x12])) (reads_self one [#"ldi"; #"$1234"]) ltac:(run) ltac:(run) eq_refl ltac:(run).
Example C28_failing_handler_case := C28_handler demo 3 skip [#"boom"; #"1"] 1 one #"boom" [#"1"]
  (fun _ => praise KeyError) one (Err (PExc KeyError)) (reads_self one [#"boom"; #"1"]) ltac:(run) ltac:(run)
  eq_refl ltac:(run).
Lemma ldi_leaves : forall s tokens, assembled (fst (demo_ldi tokens s)) = assembled s /\ pc (fst (demo_ldi tokens s)) = pc s.
Proof.
  intros s tokens.
  destruct (proj1 (demo_plugins (fun s s' => assembled s' = assembled s /\ pc s' = pc s) ltac:(intros; split; reflexivity) ltac:(intros; split; reflexivity))
              #"LDI" demo_ldi tokens s eq_refl) as [A P]. auto.
Qed.
Example C28_outcome_case := C28_outcome demo 3 skip [#"ldi"; #"$1234"] 1 one #"ldi" [#"$1234"] demo_ldi
  (reads_self one [#"ldi"; #"$1234"]) ltac:(run) ltac:(run) eq_refl ldi_leaves.
Example C28_static_case : statement_assemble demo 3 skip (Stmt KInstruction [#"nop"; #"1"] 1) one
    = (one, Err (AExc InvalidOpCodeArguments)) /\
  statement_assemble demo 3 skip (Stmt KInstruction [#"zork"] 1) one = (one, Err (AExc UnknownInstruction)).
Proof.
  split.
  - apply (proj1 (C28_static demo 3 skip [#"nop"; #"1"] 1 one #"nop" [#"1"] (reads_self one [#"nop"; #"1"])
      ltac:(run) ltac:(run)) [234] eq_refl). discriminate.
  - apply (proj2 (C28_static demo 3 skip [#"zork"] 1 one #"zork" [] (reads_self one [#"zork"])
      ltac:(run) ltac:(run))). reflexivity.
Qed.
Definition needy : st := demo_state [".macro put a"; "ldi a"; ".endmacro"]%string.
Example C28_error_kinds_case := C28_error_kinds demo 3 1 [#"put"] needy
  (fst (instruction_assemble demo 3 1 Fresh [#"put"] needy)) IndexError ltac:(run).

Definition recording : st := demo_state [".macro m a"; "ldi a"]%string.
Example C30_brackets_case :
  statement_assemble demo 3 skip (Stmt KDirective [#".macro"; #"n"] 1) recording
    = (recording, Err (AExc UnsupportedNestedMacro)) /\
  statement_assemble demo 3 skip (Stmt KDirective [#".endmacro"] 1) one
    = (one, Err (AExc NotInMacroRecordingMode)) /\
  statement_assemble demo 3 skip (Stmt KDirective [#".repeat"; #"2"] 1) repeating
    = (repeating, Err (AExc UnsupportedNestedRepeat)) /\
  statement_assemble demo 3 skip (Stmt KDirective [#".endrepeat"] 1) one
    = (one, Err (AExc NotInRepeatMode)) /\
  statement_assemble demo 3 skip (Stmt KDirective [#".endmacro"] 1) recording
    = (set_macro_recording recording None, Ok tt).
Proof.
  split; [|split; [|split; [|split]]].
  - refine (proj1 (C30_brackets demo 3 skip #".macro" [#"n"] 1 recording) _ _); [run|vm_compute; discriminate].
  - refine (proj1 (proj2 (C30_brackets demo 3 skip #".endmacro" [] 1 one)) _ _); run.
  - refine (proj1 (proj2 (proj2 (C30_brackets demo 3 skip #".repeat" [#"2"] 1 repeating))) _ _);
      [run|vm_compute; discriminate].
  - refine (proj1 (proj2 (proj2 (proj2 (C30_brackets demo 3 skip #".endrepeat" [] 1 one)))) _ _); run.
  - refine (proj2 (proj2 (proj2 (proj2 (C30_brackets demo 3 skip #".endmacro" [] 1 recording)))) _ _);
      [run|vm_compute; discriminate].
Qed.
Example C30_recording_case := C30_recording demo 3 skip recording #"M" _ ltac:(run) ltac:(run).
Example C30_recorded_exists_case := C30_recorded_exists demo (fun lk => lk = dummy_linker) []
  ltac:(apply demo_plugins; intros; split; reflexivity) (demo_passes _)
  ltac:(intros lk ->; split; intros; split; reflexivity) recording
  ltac:(apply h_assemble, h_start) #"M" ltac:(run).

Example C31_tiling_case := C31_tiling demo 5 c31_text [] (init_st []) (fst (assemble demo 5 c31_text (init_st [])))
  (proj1 C31_example) ltac:(apply h_start) ltac:(run) (proj1 (proj2 (proj2 (proj2 C31_example)))).
Example C31_declaration_case := C31_declaration demo 3 skip #".section" [#"a"; #"RX"] 1 one
  (fst (statement_assemble demo 3 skip (Stmt KDirective [#".section"; #"a"; #"RX"] 1) one)) #"a" #"RX" #"a"
  ltac:(run) (reads_self one [#"a"; #"RX"]) ltac:(apply so_bare; discriminate) ltac:(run).

Definition two_sections : st := demo_state [".section a RX"; ".export f"; "nop"; ".section b W"]%string.
Example C32_unique_case := C32_unique demo [] two_sections (proj1 C31_example) ltac:(apply h_assemble, h_start).
Example C32_persistent_case := C32_persistent demo 5 c31_text two_sections (proj1 C31_example).
Example C32_redeclared_case :
  statement_assemble demo 3 skip (Stmt KDirective [#".section"; #"a"; #"R"] 1) two_sections
    = (two_sections, Err (AExc SectionAlreadyDefined)) /\
  statement_assemble demo 3 skip (Stmt KDirective [#".export"; #"f"] 1) two_sections
    = (two_sections, Err (AExc SymbolAlreadyExported)) /\
  statement_assemble demo 3 skip (Stmt KDirective [#".export"; #"g"] 1) two_sections
    = (set_exports two_sections [#"f"; #"g"], Ok tt).
Proof.
  split; [|split].
  - refine (proj1 (C32_redeclared demo 3 skip #".section" [#"a"; #"R"] 1 two_sections #"a" #"a" _) [#"R"] _ _ _ _).
    + apply so_bare; discriminate.
    + run.
    + exact (reads_self two_sections [#"a"; #"R"]).
    + left. reflexivity.
    + eexists. run.
  - refine (proj1 (proj2 (C32_redeclared demo 3 skip #".export" [#"f"] 1 two_sections #"f" #"f" _)) _ _ _).
    + apply so_bare; discriminate.
    + run.
    + exact (reads_self two_sections [#"f"]).
    + vm_compute. left. reflexivity.
  - refine (proj2 (proj2 (C32_redeclared demo 3 skip #".export" [#"g"] 1 two_sections #"g" #"g" _)) _ _ _).
    + apply so_bare; discriminate.
    + run.
    + exact (reads_self two_sections [#"g"]).
    + vm_compute. intros [H|[]]. discriminate.
Qed.
