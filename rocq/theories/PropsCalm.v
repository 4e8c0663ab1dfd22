(** C82: a label more changes nothing else. *)
From Verif Require Import Py PyFacts Utils Tokenizer State Assembler SpecExec Mos6502 Mc68000 Mips32 Lr35902 Z80 Thumb Ppc I8086 X86
  Platform SpecPlace SpecHost Demo SpecCalm CalmFacts CalmCpu CalmMos.
Local Open Scope Z_scope.

(** Statements: with more labels known they either define one of them, and stop there, or do the same. *)
Theorem C82_statements : forall c fuel ss, calm_plugins c -> same_with_more (exec c fuel ss).
Proof. intros c fuel ss H. apply lat_same. intros X. apply lat_exec. exact H. Qed.

(** The text of a program, with the files it includes. *)
Theorem C82_assemble : forall c fuel text, calm_plugins c -> same_with_more (assemble c fuel text).
Proof. intros c fuel text H. apply lat_same. intros X. apply lat_assemble. exact H. Qed.

(** Assembling and linking: the image is the same. *)
Theorem C82_build : forall c fuel text, calm_plugins c -> same_with_more (assemble c fuel text ;; link c dummy_linker).
Proof.
  intros c fuel text H. apply lat_same. intros X. apply lat_bind; [apply lat_assemble; exact H|]. intros _.
  apply lat_cat. intros. apply cat_link. exact H.
Qed.

Lemma exec_app : forall c fuel us vs u, exec c fuel (us ++ vs) u =
  match exec c fuel us u with (v, Ok _) => exec c fuel vs v | (v, Err e) => (v, Err e) end.
Proof.
  unfold exec. intros c fuel us vs. induction us as [|a us IH]; intros u; [reflexivity|]. cbn [app iter]. unfold bind.
  destruct (statement_assemble _ _ _ a u) as [v [[]|e]]; [apply IH|reflexivity].
Qed.
Lemma label_put : forall c fuel name l t, snd (exec c fuel [Stmt KLabel [name] l] t) = Ok tt ->
  exec c fuel [Stmt KLabel [name] l] t =
    (set_labels t (dset str_eqb (labels t) name (MkLabel (org_counter t) (current_org t) (current_section t))), Ok tt) /\
  dget str_eqb (labels t) name = None.
Proof.
  intros c fuel name l t EL. unfold exec, statement_assemble in EL |- *. cbn [iter s_kind s_tokens] in *. unfold bind in *.
  rewrite label_flat in EL |- *.
  destruct (macro_recording t); [discriminate|]. cbn [nth_error] in *.
  destruct (dget str_eqb (labels t) name); [discriminate|]. destruct (negb (is_valid_name name)); [discriminate|].
  destruct (parse_integer _ _ _ _ _) as [[z|]|e]; try discriminate. split; reflexivity.
Qed.
Lemma put_plus : forall l name v, dget str_eqb l name = None -> plus [(name, v)] l (dset str_eqb l name v).
Proof.
  intros l name v FR k. cbn [dget]. destruct (str_eqb k name) eqn:EK.
  - apply str_eqb_eq in EK. subst k. rewrite (dget_dset_same str_eqb str_eqb_eq), FR. reflexivity.
  - rewrite (dget_dset_other str_eqb str_eqb_eq); [destruct (dget str_eqb l k); reflexivity|].
    intros ->. rewrite str_eqb_refl in EK. discriminate.
Qed.
Lemma put_clash : forall name v l2, clash [(name, v)] l2 <-> dget str_eqb l2 name <> None.
Proof.
  intros name v l2. split.
  - intros (k & D & F). cbn [dget] in D. destruct (str_eqb k name) eqn:EK; [apply str_eqb_eq in EK; subst; exact F|congruence].
  - intros F. exists name. cbn [dget]. rewrite str_eqb_refl. split; [discriminate|exact F].
Qed.
(** A label inserted between two statements of a program. *)
Theorem C82_inserted : forall c fuel xs ys name l s t s', calm_plugins c ->
  exec c fuel xs s = (t, Ok tt) -> exec c fuel ys t = (s', Ok tt) ->
  snd (exec c fuel [Stmt KLabel [name] l] t) = Ok tt ->
  let extra := [(name, MkLabel (org_counter t) (current_org t) (current_section t))] in
  let new := exec c fuel (xs ++ Stmt KLabel [name] l :: ys) s in
  (dget str_eqb (labels s') name = None /\ exists l', plus extra (labels s') l' /\ new = (set_labels s' l', Ok tt)) \/
  (dget str_eqb (labels s') name <> None /\ snd new = Err (AExc LabelAlreadyDefined)).
Proof.
  intros c fuel xs ys name l s t s' H EX EY EL extra new.
  pose proof (exec_app c fuel) as APP.
  assert (ONE : forall x u, exec c fuel (x :: ys) u = match exec c fuel [x] u with (v, Ok _) => exec c fuel ys v | (v, Err e) => (v, Err e) end).
  { intros x u. exact (APP [x] ys u). }
  pose proof (label_put c fuel name l t EL) as LAB.
  destruct LAB as [LAB FR]. unfold new. rewrite APP, EX, ONE, LAB.
  pose proof (put_plus (labels t) name (MkLabel (org_counter t) (current_org t) (current_section t)) FR) as P.
  pose proof (put_clash name (MkLabel (org_counter t) (current_org t) (current_section t))) as CL. fold extra in P, CL.
  destruct (C82_statements c fuel ys H extra t s' tt _ EY (fun C => proj1 (CL _) C FR) P) as [(NC & l' & P' & E)|[C E]].
  - left. split; [|eauto]. destruct (dget str_eqb (labels s') name) eqn:D; [|reflexivity]. exfalso. apply NC, CL. rewrite D. discriminate.
  - right. split; [apply CL; exact C|exact E].
Qed.

(** The processors and consoles for which this holds: all but the 6502 and the NES. *)
Theorem C82_shipped : forall C e, In C [lr35902; z80; thumb; mips32 true; mips32 false; mc68000; powerpc; i8086; x86; gameboy; sms] ->
  calm_plugins (C e).
Proof.
  intros C e I. cbn [In] in I. repeat destruct I as [<-|I]; [..|contradiction].
  - apply lr35902_calm.
  - apply z80_calm.
  - apply thumb_calm.
  - apply mips32_calm.
  - apply mips32_calm.
  - apply mc68000_calm.
  - apply powerpc_calm.
  - apply i8086_calm.
  - apply x86_calm.
  - apply gameboy_calm.
  - apply sms_calm.
Qed.

(** Programs that assemble and link: this holds for every shipped assembler. *)
Lemma shipped_linked : forall C e, In C shipped -> (forall fuel text, linked_alike (C e) (assemble (C e) fuel text)) /\
  (forall fuel ss, linked_alike (C e) (exec (C e) fuel ss)).
Proof.
  assert (K : forall c, calm_plugins c -> (forall fuel text, linked_alike c (assemble c fuel text)) /\
    (forall fuel ss, linked_alike c (exec c fuel ss))).
  { intros c H. split; intros; apply calm_linked; try exact H; intros X; [apply lat_assemble|apply lat_exec]; exact H. }
  intros C e I. unfold shipped in I. cbn [In] in I. repeat destruct I as [<-|I]; [..|contradiction].
  - split; intros; apply linked_same; try reflexivity; intros X; apply (mos_both e X).
  - apply K, lr35902_calm.
  - apply K, z80_calm.
  - apply K, thumb_calm.
  - apply K, mips32_calm.
  - apply K, mips32_calm.
  - apply K, mc68000_calm.
  - apply K, powerpc_calm.
  - apply K, i8086_calm.
  - apply K, x86_calm.
  - apply K, gameboy_calm.
  - split; intros; apply linked_same; try reflexivity; intros X; apply (nes_both e X).
  - apply K, sms_calm.
Qed.
Theorem C82_linked : forall C e fuel text, In C shipped -> linked_alike (C e) (assemble (C e) fuel text).
Proof. intros C e fuel text I. apply shipped_linked. exact I. Qed.

(** A label inserted between two statements of a program that links. *)
Theorem C82_linked_inserted : forall C e fuel xs ys name l s t s', In C shipped ->
  exec (C e) fuel xs s = (t, Ok tt) -> tidy t -> (exec (C e) fuel ys ;; link (C e) dummy_linker) t = (s', Ok tt) ->
  snd (exec (C e) fuel [Stmt KLabel [name] l] t) = Ok tt -> dget str_eqb (labels s') name = None ->
  exists l', plus [(name, MkLabel (org_counter t) (current_org t) (current_section t))] (labels s') l' /\
    (exec (C e) fuel (xs ++ Stmt KLabel [name] l :: ys) ;; link (C e) dummy_linker) s = (set_labels s' l', Ok tt).
Proof.
  intros C e fuel xs ys name l s t s' I EX T EY EL NL. destruct (label_put (C e) fuel name l t EL) as [LAB FR].
  destruct (proj2 (shipped_linked C e I) fuel ys [(name, MkLabel (org_counter t) (current_org t) (current_section t))] t s'
    (dset str_eqb (labels t) name (MkLabel (org_counter t) (current_org t) (current_section t))) T EY) as (l' & P & E).
  - intros F. apply put_clash in F. contradiction.
  - apply put_plus. exact FR.
  - exists l'. split; [exact P|]. unfold bind in *. rewrite exec_app, EX.
    change (Stmt KLabel [name] l :: ys) with ([Stmt KLabel [name] l] ++ ys). rewrite exec_app, LAB. exact E.
Qed.

(** The 6502 takes a shorter instruction when it knows a label of the zero page already. *)
Definition c82_zero : list (str * label) := [(#"n", MkLabel 16 0 None)].
Theorem C82_zero_page_refuted : exists e fuel text, ~ same_with_more (assemble (mos6502 e) fuel text).
Proof.
  exists demo_env, 3%nat, #"LDA n". intros H.
  destruct (assemble (mos6502 demo_env) 3 #"LDA n" (init_st [])) as [s' r] eqn:E.
  assert (R : r = Ok tt) by (change r with (snd (s', r)); rewrite <- E; vm_compute; reflexivity). subst r.
  assert (A : assembled s' = [0xAD; 0; 0]) by (change s' with (fst (s', Ok tt)); rewrite <- E; vm_compute; reflexivity).
  destruct (H c82_zero (init_st []) s' tt c82_zero E) as [(_ & l' & _ & E2)|[_ E2]].
  - intros (k & _ & D). apply D. reflexivity.
  - intros k. reflexivity.
  - assert (B : assembled (fst (assemble (mos6502 demo_env) 3 #"LDA n" (set_labels (init_st []) c82_zero))) = [0xA5; 16]) by (vm_compute; reflexivity).
    rewrite E2 in B. cbn [fst assembled set_labels] in B. rewrite A in B. discriminate.
  - assert (B : snd (assemble (mos6502 demo_env) 3 #"LDA n" (set_labels (init_st []) c82_zero)) = Ok tt) by (vm_compute; reflexivity).
    rewrite E2 in B. discriminate.
Qed.

(** ** Cases *)

Lemma ran : forall A (m : M A) s a, snd (m s) = Ok a -> m s = (fst (m s), Ok a).
Proof. intros A m s a H. destruct (m s) as [u r]. cbn [snd] in H. subst. reflexivity. Qed.
Definition c82_cfg : cfg := lr35902 demo_env.
Definition c82_program : str := lines ["JP start"; "NOP"; "start: LD A,1"; "JR start"; ".dw start+1"]%string.
Notation c82_build := (assemble c82_cfg 3 c82_program ;; link c82_cfg dummy_linker).
Definition c82_more : list (str * label) := [(#"other", MkLabel 2 0 None); (#"more", MkLabel 0 0 None)].
Definition c82_start : list (str * label) := [(#"start", MkLabel 2 0 None)].
Lemma c82_apart : forall X, ~ clash X (labels (init_st [])).
Proof. intros X (k & _ & D). apply D. reflexivity. Qed.
Lemma c82_plus : forall X, plus X (labels (init_st [])) X.
Proof. intros X k. reflexivity. Qed.
Lemma c82_calm : calm_plugins c82_cfg.
Proof. apply lr35902_calm. Qed.

Definition c82_xs : list stmt := [Stmt KInstruction [#"NOP"] 1; Stmt KInstruction [#"JP"; #"end"] 2].
Definition c82_ys : list stmt := [Stmt KLabel [#"end"] 3; Stmt KInstruction [#"HALT"] 4].
Definition c82_mid : st := fst (exec c82_cfg 3 c82_xs (init_st [])).
Lemma c82_ran1 : c82_build (init_st []) = (fst (c82_build (init_st [])), Ok tt).
Proof. apply ran. vm_compute. reflexivity. Qed.
Lemma c82_ran2 : (assemble c82_cfg 3 c82_program) (init_st []) = (fst ((assemble c82_cfg 3 c82_program) (init_st [])), Ok tt).
Proof. apply ran. vm_compute. reflexivity. Qed.
Lemma c82_ran3 : (exec c82_cfg 3 c82_xs) (init_st []) = (fst ((exec c82_cfg 3 c82_xs) (init_st [])), Ok tt).
Proof. apply ran. vm_compute. reflexivity. Qed.
Lemma c82_ran4 : (exec c82_cfg 3 c82_ys) c82_mid = (fst ((exec c82_cfg 3 c82_ys) c82_mid), Ok tt).
Proof. apply ran. vm_compute. reflexivity. Qed.
Lemma c82_ran5 : (exec c82_cfg 3 c82_ys) (init_st []) = (fst ((exec c82_cfg 3 c82_ys) (init_st [])), Ok tt).
Proof. apply ran. vm_compute. reflexivity. Qed.
Lemma c82_label : snd (exec c82_cfg 3 [Stmt KLabel [#"here"] 2] c82_mid) = Ok tt.
Proof. vm_compute. reflexivity. Qed.

(** The same image with two labels more. *)
Example C82_build_case := C82_build c82_cfg 3 c82_program c82_calm c82_more (init_st []) (fst (c82_build (init_st []))) tt c82_more
  c82_ran1 (c82_apart _) (c82_plus _).
Example C82_example :
  map (fun l => let r := c82_build (set_labels (init_st []) l) in (assembled (fst r), map fst (labels (fst r)), snd r)) [[]; c82_more; c82_start] =
  [ ([0xC3; 4; 0; 0; 0x3E; 1; 0x18; 0xFC; 5; 0], [#"start"], Ok tt);
    ([0xC3; 4; 0; 0; 0x3E; 1; 0x18; 0xFC; 5; 0], [#"other"; #"more"; #"start"], Ok tt);
    ([0xC3; 0; 0; 0], [#"start"], Err (AExc LabelAlreadyDefined)) ].
Proof. vm_compute. reflexivity. Qed.
Example C82_assemble_case := C82_assemble c82_cfg 3 c82_program c82_calm c82_start (init_st [])
  (fst (assemble c82_cfg 3 c82_program (init_st []))) tt c82_start
  c82_ran2 (c82_apart _) (c82_plus _).

(** A label put between two instructions. *)
Example C82_inserted_case := C82_inserted c82_cfg 3 c82_xs c82_ys #"here" 2 (init_st []) c82_mid (fst (exec c82_cfg 3 c82_ys c82_mid)) c82_calm
  c82_ran3
  c82_ran4 c82_label.
Example C82_inserted_example :
  map (fun n => let r := exec c82_cfg 3 (c82_xs ++ Stmt KLabel [n] 2 :: c82_ys) (init_st []) in
                (assembled (fst r), map (fun '(k, v) => (k, label_address v)) (labels (fst r)), snd r)) [#"here"; #"end"] =
  [ ([0; 0xC3; 0; 0; 0x76], [(#"here", 4); (#"end", 4)], Ok tt);
    ([0; 0xC3; 0; 0], [(#"end", 4)], Err (AExc LabelAlreadyDefined)) ].
Proof. vm_compute. reflexivity. Qed.
Example C82_statements_case := C82_statements c82_cfg 3 c82_ys c82_calm c82_more (init_st [])
  (fst (exec c82_cfg 3 c82_ys (init_st []))) tt c82_more
  c82_ran5 (c82_apart _) (c82_plus _).
Example C82_shipped_case := C82_shipped x86 demo_env ltac:(cbn [In]; tauto).

(** A 6502 program with a zero page label. *)
Definition c82_mos : cfg := mos6502 demo_env.
Definition c82_text : str := lines ["v: NOP"; "LDA v"; "STA w"; "JMP v"; "w: RTS"]%string.
Notation c82_mos_build := (assemble c82_mos 3 c82_text ;; link c82_mos dummy_linker).
Lemma c82_tidy : forall d, tidy (init_st d).
Proof. intros d. exists []. repeat constructor. Qed.
Lemma c82_ran_mos : c82_mos_build (init_st []) = (fst (c82_mos_build (init_st [])), Ok tt).
Proof. apply ran. vm_compute. reflexivity. Qed.
Lemma c82_apart_mos : ~ clash c82_zero (labels (fst (c82_mos_build (init_st [])))).
Proof.
  intros (k & D & F). apply F. clear F. unfold c82_zero in D. cbn [dget] in D. destruct (str_eqb k #"n") eqn:E; [|congruence].
  apply str_eqb_eq in E. subst k. vm_compute. reflexivity.
Qed.
Lemma c82_in : In mos6502 shipped.
Proof. left. reflexivity. Qed.
Example C82_linked_case := C82_linked mos6502 demo_env 3 c82_text c82_in c82_zero (init_st []) (fst (c82_mos_build (init_st []))) c82_zero
  (c82_tidy []) c82_ran_mos c82_apart_mos (c82_plus _).
Example C82_linked_example :
  map (fun l => let r := c82_mos_build (set_labels (init_st []) l) in (assembled (fst r), map fst (labels (fst r)), snd r)) [[]; c82_zero] =
  [ ([0xEA; 0xA5; 0; 0x8D; 9; 0; 0x4C; 0; 0; 0x60], [#"v"; #"w"], Ok tt);
    ([0xEA; 0xA5; 0; 0x8D; 9; 0; 0x4C; 0; 0; 0x60], [#"n"; #"v"; #"w"], Ok tt) ].
Proof. vm_compute. reflexivity. Qed.
Definition c82_us : list stmt := [Stmt KInstruction [#"NOP"] 1].
Definition c82_vs : list stmt := [Stmt KInstruction [#"JMP"; #"end"] 2; Stmt KLabel [#"end"] 3; Stmt KInstruction [#"RTS"] 4].
Definition c82_at : st := fst (exec c82_mos 3 c82_us (init_st [])).
Notation c82_rest := (exec c82_mos 3 c82_vs ;; link c82_mos dummy_linker).
Lemma c82_ran_us : exec c82_mos 3 c82_us (init_st []) = (c82_at, Ok tt).
Proof. apply ran. vm_compute. reflexivity. Qed.
Lemma c82_ran_vs : c82_rest c82_at = (fst (c82_rest c82_at), Ok tt).
Proof. apply ran. vm_compute. reflexivity. Qed.
Lemma c82_at_tidy : tidy c82_at.
Proof. exists []. assert (E : labels_addresses c82_at = []) by (vm_compute; reflexivity). rewrite E. repeat constructor. Qed.
Lemma c82_at_label : snd (exec c82_mos 3 [Stmt KLabel [#"here"] 2] c82_at) = Ok tt.
Proof. vm_compute. reflexivity. Qed.
Lemma c82_at_new : dget str_eqb (labels (fst (c82_rest c82_at))) #"here" = None.
Proof. vm_compute. reflexivity. Qed.
Example C82_linked_inserted_case := C82_linked_inserted mos6502 demo_env 3 c82_us c82_vs #"here" 2 (init_st []) c82_at (fst (c82_rest c82_at))
  c82_in c82_ran_us c82_at_tidy c82_ran_vs c82_at_label c82_at_new.

Print Assumptions C82_statements.
Print Assumptions C82_assemble.
Print Assumptions C82_build.
Print Assumptions C82_inserted.
Print Assumptions C82_shipped.
Print Assumptions C82_linked.
Print Assumptions C82_linked_inserted.
Print Assumptions C82_zero_page_refuted.
