(** C72 included sources, C73 nesting. *)
From Coq Require Import Lia.
From Verif Require Import Py PyFacts Utils Tokenizer State Assembler SpecUtils SpecTok SpecSubst SubstFacts TokFacts
  SpecExec Events ExecFacts SpecSim SimFacts SimExec FuelFacts TileFacts Demo PropsTok PropsExec PropsPad PropsRuns.
Local Open Scope Z_scope.

(** ** C73 *)

(** How deep includes and macro calls may nest matters for no run that stays within it. *)
Theorem C73_depth : forall c fuel fuel' text s, (fuel <= fuel')%nat ->
  snd (assemble c fuel text s) <> Err (PExc RecursionError) -> assemble c fuel' text s = assemble c fuel text s.
Proof. intros c fuel fuel' text s L. exact (refines_assemble c fuel fuel' L text s). Qed.
Print Assumptions C73_depth.

Lemma include_runs : forall c fuel t0 op op' name file l s, names c t0 D_include -> reads s [op] [op'] -> string_operand op' name ->
  file_text (c_env c) name = Some file ->
  exec c (S fuel) [Stmt KDirective [t0; op] l] s = assemble c fuel file s.
Proof.
  intros c fuel t0 op op' name file l s N R SO FT. unfold exec. cbn [iter]. unfold bind at 1.
  rewrite (directive_run _ _ _ _ _ _ _ s _ N R). cbn [run_directive]. unfold directive_include.
  change (negb (len_in [t0; op'] [2]%nat)) with false. cbv iota. unfold bind, tok_at, lift, ret. cbn [nth_error].
  rewrite (stringify_operand _ _ SO). unfold open_file. rewrite FT. unfold ret.
  destruct (assemble c fuel file s) as [s' [[]|e]]; reflexivity.
Qed.

(** A file that begins with including itself is never accepted. *)
Theorem C73_circular : forall c fuel t0 op op' name text l rest s, names c t0 D_include ->
  tokenize text = Ok (Stmt KDirective [t0; op] l :: rest) -> reads s [op] [op'] -> string_operand op' name ->
  file_text (c_env c) name = Some text -> assemble c fuel text s = (s, Err (PExc RecursionError)).
Proof.
  intros c fuel t0 op op' name text l rest s N T R SO FT. induction fuel as [|fuel IH]; rewrite (assemble_exec _ _ _ _ _ T).
  - unfold exec. cbn [iter]. unfold bind at 1 2. rewrite (directive_run _ _ _ _ _ _ _ s _ N R). cbn [run_directive]. unfold directive_include.
    change (negb (len_in [t0; op'] [2]%nat)) with false. cbv iota. unfold bind, tok_at, lift, ret. cbn [nth_error].
    rewrite (stringify_operand _ _ SO). unfold open_file. rewrite FT. reflexivity.
  - change (Stmt KDirective [t0; op] l :: rest) with ([Stmt KDirective [t0; op] l] ++ rest). unfold bind at 1. unfold exec. rewrite iter_app.
    fold (exec c (S fuel) [Stmt KDirective [t0; op] l]). unfold bind. rewrite (include_runs _ _ _ _ _ _ _ _ _ N R SO FT), IH. reflexivity.
Qed.
Print Assumptions C73_circular.

(** ** C72 *)

Lemma same_macros_sym : forall l1 l2, Forall2 (same_macro true) l1 l2 -> Forall2 (same_macro true) l2 l1.
Proof.
  induction 1 as [|x y l1 l2 (A & B & C) _ IH]; constructor; [|exact IH]. split; [auto|]. split; [auto|].
  clear - C. induction C as [|a b p q (A & B & _) _ IH]; constructor; [|exact IH]. split; [auto|]. split; [auto|]. discriminate.
Qed.
Lemma same_macros_trans : forall l1 l2 l3, Forall2 (same_macro true) l1 l2 -> Forall2 (same_macro true) l2 l3 -> Forall2 (same_macro true) l1 l3.
Proof.
  intros l1 l2 l3 H. revert l3. induction H as [|x y l1 l2 (A & B & C) _ IH]; intros l3 H3; inversion H3 as [|? z ? ? (A' & B' & C') R]; subst; constructor; [|auto].
  split; [congruence|]. split; [congruence|]. revert C'. generalize (m_body (snd z)). clear - C. intros q C'.
  revert q C'. induction C as [|a b p r (A & B & _) _ IH]; intros q C'; inversion C' as [|? ? ? ? (A' & B' & _) R]; subst; constructor; auto.
  split; [congruence|]. split; [congruence|]. discriminate.
Qed.
Lemma agree_sym : forall s1 s2, agree false true s1 s2 -> agree false true s2 s1.
Proof.
  intros s1 s2 (E1 & E2 & E3 & E4 & E5 & E6 & E7 & E8 & E9 & E10 & E11 & E12 & E13 & E14 & E15 & E16 & E17 & E18). unfold agree. rewrite E12. cbv iota in E11 |- *.
  repeat (split; [first [reflexivity | symmetry; assumption | apply same_macros_sym; assumption | intros _; symmetry; auto]|]). symmetry. assumption.
Qed.
Lemma agree_trans : forall s1 s2 s3, agree false true s1 s2 -> agree false true s2 s3 -> agree false true s1 s3.
Proof.
  intros s1 s2 s3 (E1 & E2 & E3 & E4 & E5 & E6 & E7 & E8 & E9 & E10 & E11 & E12 & E13 & E14 & E15 & E16 & E17 & E18)
    (F1 & F2 & F3 & F4 & F5 & F6 & F7 & F8 & F9 & F10 & F11 & F12 & F13 & F14 & F15 & F16 & F17 & F18). unfold agree. cbv iota in E11, F11 |- *. rewrite E12 in F11.
  specialize (E10 eq_refl). specialize (F10 eq_refl).
  repeat (split; [first [congruence | eapply same_macros_trans; eassumption | intros _; congruence]|]). congruence.
Qed.

Lemma tail_unbounded : forall c s s' r, 0 <= fill_value (c_p c) < 256 -> assemble_tail c s = (s', r) -> (r = Ok tt -> current_org_end s' = 0) ->
  s' = close_section s /\ r = Ok tt.
Proof.
  intros c s s' r FV T HE. unfold assemble_tail, bind, get in T.
  destruct (0 <? current_org_end s) eqn:E1; [exfalso|injection T as <- <-; auto]. apply Z.ltb_lt in E1.
  assert (Y : current_org_end s' = current_org_end s /\ r = Ok tt).
  { assert (CE : forall u, current_org_end (close_section u) = current_org_end u) by (intros u; rewrite close_section_eq; reflexivity).
    destruct (current_org s + org_counter s <? current_org_end s).
    - rewrite fill_blob_ok in T by auto. cbn [lift append_assembled_bytes modify] in T. injection T as <- <-. rewrite CE. auto.
    - injection T as <- <-. rewrite CE. auto. }
  destruct Y as [Y1 Y2]. specialize (HE Y2). lia.
Qed.
Lemma exec_app : forall c fuel a b s, exec c fuel (a ++ b) s = (exec c fuel a ;; exec c fuel b) s.
Proof. intros. unfold exec. apply iter_app. Qed.
Lemma assemble_split : forall c fuel text x y s, tokenize text = Ok (x ++ y) ->
  assemble c fuel text s = match exec c fuel x s with (s1, Ok _) => (exec c fuel y ;; assemble_tail c) s1 | (s1, Err e) => (s1, Err e) end.
Proof.
  intros c fuel text x y s T. rewrite (assemble_exec _ _ _ _ _ T). unfold bind at 1. rewrite exec_app. unfold bind.
  destruct (exec c fuel x s) as [s1 [[]|e]]; reflexivity.
Qed.
Lemma exec_tail : forall c fuel x y s, (exec c fuel (x ++ y) ;; assemble_tail c) s =
  match exec c fuel x s with (s1, Ok _) => (exec c fuel y ;; assemble_tail c) s1 | (s1, Err e) => (s1, Err e) end.
Proof. intros. unfold bind at 1. rewrite exec_app. unfold bind. destruct (exec c fuel x s) as [s1 [[]|e]]; reflexivity. Qed.
Lemma shifted : forall k ss, Forall2 (same_stmt true) ss (shift_lines k ss).
Proof. intros k ss. unfold shift_lines. induction ss; constructor; auto. split; [auto|]. split; [auto|]. discriminate. Qed.

(** A line .include behaves like the text of the file in its place, if the file is a complete
    text and leaves no bounded origin in force: the same output, labels, references and all
    else, or the same error.  Line numbers of recorded macros differ. *)
Theorem C72_pasted : forall c fuel a inc file b ssa ssf ssb t0 op l name s, plugins_oblivious false true c ->
  0 <= fill_value (c_p c) < 256 ->
  source 1 ssa a -> source 1 [Stmt KDirective [t0; op] l] inc -> names c t0 D_include ->
  file_text (c_env c) name = Some file -> source 1 ssf file -> tokenize b = Ok ssb ->
  (forall s1, exec c (S fuel) ssa s = (s1, Ok tt) -> exists op', reads s1 [op] [op'] /\ string_operand op' name) ->
  (forall s1 s2, exec c (S fuel) ssa s = (s1, Ok tt) -> assemble c fuel file s1 = (s2, Ok tt) -> current_org_end s2 = 0) ->
  let including := assemble c (S fuel) (a ++ newline :: inc ++ newline :: b) s in
  let pasted := assemble c (S fuel) (a ++ newline :: file ++ newline :: b) s in
  snd including <> Err (PExc RecursionError) ->
  snd pasted = snd including /\ agree false true (fst including) (fst pasted) /\
  (snd pasted = Ok tt -> sections (fst pasted) = sections (fst including)).
Proof.
  intros c fuel a inc file b ssa ssf ssb t0 op l name s PO FV SA SI N FT SF TB RD UB including pasted NR.
  assert (AG : snd pasted = snd including /\ agree false true (fst including) (fst pasted)).
  { assert (TI : tokenize (a ++ newline :: inc ++ newline :: b) =
        Ok (ssa ++ shift_lines (newlines a + 1) ([Stmt KDirective [t0; op] l] ++ shift_lines (newlines inc + 1) ssb))).
    { rewrite (tokenize_app _ _ _ SA), (tokenize_app _ _ _ SI), TB. reflexivity. }
    assert (TP : tokenize (a ++ newline :: file ++ newline :: b) =
        Ok (ssa ++ shift_lines (newlines a + 1) (ssf ++ shift_lines (newlines file + 1) ssb))).
    { rewrite (tokenize_app _ _ _ SA), (tokenize_app _ _ _ SF), TB. reflexivity. }
    assert (TF : tokenize file = Ok ssf) by (apply C11_grammar; auto).
    unfold including, pasted in *. clear including pasted.
    rewrite (assemble_split _ _ _ _ _ _ TI) in *. rewrite (assemble_split _ _ _ _ _ _ TP).
    destruct (exec c (S fuel) ssa s) as [s1 [[]|e]]; [|split; [reflexivity|apply agree_refl]].
    destruct (RD s1 eq_refl) as (op' & R & SO). specialize (UB s1).
    assert (SL : forall k x y, shift_lines k (x ++ y) = shift_lines k x ++ shift_lines k y) by (intros; apply map_app).
    rewrite !SL in *. change (shift_lines (newlines a + 1) [Stmt KDirective [t0; op] l]) with [Stmt KDirective [t0; op] (l + (newlines a + 1))] in *.
    rewrite (exec_tail c (S fuel) [_] _ s1) in *. rewrite (exec_tail c (S fuel) (shift_lines _ ssf) _ s1).
    rewrite (include_runs _ _ _ _ _ _ _ _ _ N R SO FT) in *. rewrite (assemble_exec _ _ _ _ _ TF) in *.
    assert (FE : (exec c fuel ssf ;; assemble_tail c) s1 =
      match exec c fuel ssf s1 with (s2, Ok _) => assemble_tail c s2 | (s2, Err e) => (s2, Err e) end)
      by (unfold bind; destruct (exec c fuel ssf s1) as [s2 [[]|e]]; reflexivity).
    rewrite FE in *. clear FE.
    destruct (exec c fuel ssf s1) as [s2 r2] eqn:XF.
    assert (NF : snd (exec c fuel ssf s1) <> Err (PExc RecursionError)).
    { rewrite XF. destruct r2 as [[]|e]; [discriminate|]. exact NR. }
    pose proof (refines_exec c fuel (S fuel) ssf (le_S _ _ (le_n _)) s1 NF) as XS. rewrite XF in XS.
    pose proof (rat_exec false true c PO (S fuel) ssf (shift_lines (newlines a + 1) ssf) s1 s1 (agree_refl _ _ _) (shifted _ _)) as [X1 X2].
    rewrite XS in X1, X2. cbn [fst snd] in X1, X2.
    destruct (exec c (S fuel) (shift_lines _ ssf) s1) as [s2' r2']. cbn [fst snd] in X1, X2. subst r2'.
    destruct r2 as [[]|e]; [|split; [reflexivity|exact X1]].
    destruct (assemble_tail c s2) as [s3 r3] eqn:T3.
    destruct (tail_unbounded _ _ _ _ FV T3) as [-> ->]; [intros ->; apply (UB s3 eq_refl); reflexivity|].
    assert (AG0 : agree false true (close_section s2) s2') by (apply (agree_trans _ s2); [apply agree_sym, close_agree|exact X1]).
    assert (Q : rat false true (exec c (S fuel) (shift_lines (newlines a + 1) (shift_lines (newlines inc + 1) ssb)) ;; assemble_tail c)
       (exec c (S fuel) (shift_lines (newlines a + 1) (shift_lines (newlines file + 1) ssb)) ;; assemble_tail c)
       (close_section s2) s2').
    { apply rat_bind.
      - apply rat_exec; auto. clear. unfold shift_lines. rewrite !map_map. induction ssb; constructor; auto.
        split; [reflexivity|]. split; [reflexivity|]. discriminate.
      - intros _ t1 t2 AT. apply rat_tail. auto. }
    destruct Q as [Q1 Q2]. split; [exact Q2|exact Q1]. }
  destruct AG as [R A]. split; [exact R|]. split; [exact A|]. intros OK.
  assert (C1 : exists u, fst pasted = close_section u).
  { apply (assemble_closes c (S fuel) (a ++ newline :: file ++ newline :: b) s). fold pasted. rewrite <- OK. apply surjective_pairing. }
  assert (C2 : exists u, fst including = close_section u).
  { rewrite R in OK. apply (assemble_closes c (S fuel) (a ++ newline :: inc ++ newline :: b) s). fold including. rewrite <- OK. apply surjective_pairing. }
  destruct C1 as [u C1], C2 as [v C2]. pose proof (close_eq _ _ _ _ A) as E. rewrite C1, C2 in E |- *.
  rewrite !close_idem in E. exact E.
Qed.
Print Assumptions C72_pasted.

(** A file that cannot be opened: the raw error of the host, and nothing assembled. *)
Theorem C72_missing : forall c fuel t0 op op' name l s, names c t0 D_include -> reads s [op] [op'] -> string_operand op' name ->
  file_text (c_env c) name = None ->
  exec c fuel [Stmt KDirective [t0; op] l] s = (s, Err (PExc OSError)).
Proof.
  intros c fuel t0 op op' name l s N R SO FT. unfold exec. cbn [iter]. unfold bind at 1.
  rewrite (directive_run _ _ _ _ _ _ _ s _ N R). cbn [run_directive]. unfold directive_include.
  change (negb (len_in [t0; op'] [2]%nat)) with false. cbv iota. unfold bind, tok_at, lift, ret. cbn [nth_error].
  rewrite (stringify_operand _ _ SO). unfold open_file. rewrite FT. reflexivity.
Qed.
Print Assumptions C72_missing.

(** ** Examples *)

Definition inc_env : env :=
  Env (fun n => if str_eqb n #"sub.s" then Some (lines ["sub: ldi main"; "bra sub"; ".macro two"; "nop"; "nop"; ".endmacro"])
                else if str_eqb n #"ring.s" then Some (lines [".include ring.s"; "nop"])
                else if str_eqb n #"bound.s" then Some (lines [".org 0 7"; "nop"]) else None)%string
      (fun _ => None) (fun _ => None) (fun _ => None) (fun _ => None).
Definition inc_cfg : cfg := mk_cfg demo_p inc_env demo_ops [] [] [].

Lemma inc_oblivious : forall lg ln, plugins_oblivious lg ln inc_cfg.
Proof. intros lg ln. pose proof (demo_oblivious lg ln) as H. exact H. Qed.

Definition the_text {A} (o : option A) (d : A) : A := match o with Some x => x | None => d end.

(** Output before linking of the including and of the pasted text. *)
Definition inc_a : str := lines ["main: nop"]%string.
Definition inc_line : str := #".include sub.s".
Definition inc_b : str := lines ["two"; "ldi sub"]%string.
Definition inc_file : str := the_text (file_text inc_env #"sub.s") [].

Example C72_example :
  let including := assemble inc_cfg 6 (inc_a ++ newline :: inc_line ++ newline :: inc_b) (init_st []) in
  let pasted := assemble inc_cfg 6 (inc_a ++ newline :: inc_file ++ newline :: inc_b) (init_st []) in
  assembled (fst including) = [234; 1; 0; 0; 2; 0; 234; 234; 1; 0; 0] /\
  assembled (fst pasted) = assembled (fst including) /\
  snd including = Ok tt /\ map fst (labels (fst including)) = [#"main"; #"sub"] /\
  map fst (labels_addresses (fst including)) = [2; 5; 9] /\
  (snd pasted = snd including /\ agree false true (fst including) (fst pasted) /\
   (snd pasted = Ok tt -> sections (fst pasted) = sections (fst including))).
Proof.
  cbv zeta. split; [vm_compute; reflexivity|]. split; [vm_compute; reflexivity|]. split; [vm_compute; reflexivity|].
  split; [vm_compute; reflexivity|]. split; [vm_compute; reflexivity|].
  destruct (tokenize inc_a) as [ssa|e] eqn:TA; [|vm_compute in TA; discriminate TA].
  destruct (tokenize inc_file) as [ssf|e] eqn:TF; [|vm_compute in TF; discriminate TF].
  destruct (tokenize inc_b) as [ssb|e] eqn:TB; [|vm_compute in TB; discriminate TB].
  apply (C72_pasted inc_cfg 5 inc_a inc_line inc_file inc_b ssa ssf ssb #".include" #"sub.s" 1 #"sub.s" (init_st [])).
  - apply inc_oblivious.
  - split; [discriminate|reflexivity].
  - apply plain_source; [exact TA|vm_compute; reflexivity].
  - apply plain_source; vm_compute; reflexivity.
  - vm_compute; reflexivity.
  - vm_compute; reflexivity.
  - apply plain_source; [exact TF|vm_compute; reflexivity].
  - exact TB.
  - intros s1 E. exists #"sub.s". vm_compute in TA. injection TA as <-. vm_compute in E. injection E as <-.
    split; [exact (reads_self _ [#"sub.s"])|]. apply so_bare; discriminate.
  - intros s1 s2 E F. vm_compute in TA. injection TA as <-. vm_compute in E. injection E as <-.
    vm_compute in F. injection F as <-. vm_compute. reflexivity.
  - vm_compute. discriminate.
Qed.

Example C72_missing_example :
  exec inc_cfg 5 [Stmt KDirective [#".include"; #"none.s"] 1] (init_st []) = (init_st [], Err (PExc OSError)).
Proof.
  apply (C72_missing _ _ _ _ #"none.s" #"none.s"); [reflexivity|exact (reads_self _ [#"none.s"])|apply so_bare; discriminate|reflexivity].
Qed.

(** A run that needs depth two, at depths two and up. *)
Example C73_example : forall fuel, (2 <= fuel)%nat ->
  assemble inc_cfg fuel (inc_a ++ newline :: inc_line ++ newline :: inc_b) (init_st []) =
  assemble inc_cfg 2 (inc_a ++ newline :: inc_line ++ newline :: inc_b) (init_st []).
Proof. intros fuel L. apply C73_depth; [exact L|]. vm_compute. discriminate. Qed.

Example C73_circular_example : forall fuel,
  assemble inc_cfg fuel (lines [".include ring.s"; "nop"]%string) (init_st []) = (init_st [], Err (PExc RecursionError)).
Proof.
  intros fuel.
  apply (C73_circular inc_cfg fuel #".include" #"ring.s" #"ring.s" #"ring.s" _ 1 [Stmt KInstruction [#"nop"] 2]);
    [reflexivity|vm_compute; reflexivity|exact (reads_self _ [#"ring.s"])|apply so_bare; discriminate|reflexivity].
Qed.

(** Without the condition on the origin the two differ: the end of an included file fills
    the range of the origin. *)
Theorem C72_bounded_refuted : exists inc file b,
  inc = #".include bound.s" /\ file_text inc_env (#"bound.s") = Some file /\ b = lines ["nop"]%string /\
  assembled (fst (assemble inc_cfg 5 (inc ++ newline :: b) (init_st []))) = [234; 0; 0; 0; 0; 0; 0; 0; 234] /\
  assembled (fst (assemble inc_cfg 5 (file ++ newline :: b) (init_st []))) = [234; 234; 0; 0; 0; 0; 0; 0].
Proof. do 3 eexists. split; [reflexivity|]. split; [vm_compute; reflexivity|]. split; [reflexivity|]. split; vm_compute; reflexivity. Qed.
Print Assumptions C72_bounded_refuted.
