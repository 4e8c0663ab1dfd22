(** Comparing runs: assembling in pieces (C27), letter case (C29), logging (C35). *)
From Coq Require Import Lia.
From Verif Require Import Py PyFacts Utils Tokenizer State Assembler SpecUtils SpecTok SpecSubst SubstFacts TokFacts
  SpecExec Events ExecFacts SpecSim SimFacts SimExec Demo PropsTok PropsExec PropsPad.
Local Open Scope Z_scope.

(** ** The plug-ins of the demo assembler are oblivious *)
Lemma demo_oblivious : forall lg ln, plugins_oblivious lg ln demo.
Proof.
  intros lg ln. split; [|split].
  - intros k f tokens H. apply demo_handler in H.
    assert (K : forall (o : Z) d sg (pk : list (option Z) -> res bytes) s1 s2, agree lg ln s1 s2 ->
      rat lg ln (let! v := parse_integer_or_label demo_p d sg in let! b := lift (pk [Some v]) in ret (Some (o :: b)))
        (let! v := parse_integer_or_label demo_p d sg in let! b := lift (pk [Some v]) in ret (Some (o :: b))) s1 s2).
    { intros. apply rat_bind; [apply rat_poil; auto|]. intros; rgo. }
    destruct H as [H|[H|[H|[H|H]]]]; try discriminate H; injection H as ->; intros s1 s2 A.
    + unfold demo_ldi. destruct tokens as [|x [|t [|]]]; try (split; [exact A|reflexivity]). apply K; auto.
    + unfold demo_bra. destruct tokens as [|x [|t [|]]]; try (split; [exact A|reflexivity]).
      apply rat_get. same A. apply K; auto.
    + split; auto.
    + split; auto.
  - intros k f tokens H. exfalso. apply dget_In in H. eapply demo_directives; eauto.
  - intros m I. contradiction.
Qed.
Lemma dummy_oblivious : forall lg ln, linker_oblivious lg ln dummy_linker.
Proof.
  intros. split; intros; intros s1 s2 A; unfold dummy_linker; cbn [lk_resolve lk_link].
  - split; auto.
  - apply rat_get. same A. rgo.
Qed.

Lemma iter_app : forall A (f : A -> M unit) l1 l2 s, iter f (l1 ++ l2) s = bind (iter f l1) (fun _ => iter f l2) s.
Proof.
  induction l1; intros l2 s; cbn [app iter]; [reflexivity|]. unfold bind in *.
  destruct (f a s) as [s1 [[]|e]]; auto.
Qed.

(** ** C35 *)

Lemma same_macros_eq : forall l1 l2, Forall2 (same_macro false) l1 l2 -> l2 = l1.
Proof.
  intros l1 l2 H. induction H as [|[k1 [a1 b1]] [k2 [a2 b2]] l1 l2 (A & B & C) H IH]; auto.
  cbn [fst snd m_args m_body] in *. subst. f_equal. f_equal. f_equal.
  clear H. induction C as [|[k t l] [k' t' l'] b1 b2 (X & Y & Z) C IH]; auto. cbn in *. subst.
  rewrite Z by auto. reflexivity.
Qed.
Lemma agree_log : forall s1 s2, agree true false s1 s2 <-> exists b, s2 = set_log s1 b.
Proof.
  intros s1 s2. split.
  - intros (E1 & E2 & E3 & E4 & E5 & E6 & E7 & E8 & E9 & E10 & E11 & E12 & E13 & E14 & E15 & E16 & E17 & E18).
    exists (log s2). apply same_macros_eq in E7. destruct s1, s2. cbn in *. subst. reflexivity.
  - intros [b ->]. pose proof (agree_refl true false s1) as A. destruct s1. unfold agree in *. cbn in *.
    repeat split; try apply A. discriminate.
Qed.

(** The state of the log flag influences neither the result nor anything else in the
    state, for assemble and for link. *)
Theorem C35_assemble : forall c fuel text s b, plugins_oblivious true false c ->
  snd (assemble c fuel text (set_log s b)) = snd (assemble c fuel text s) /\
  exists b', fst (assemble c fuel text (set_log s b)) = set_log (fst (assemble c fuel text s)) b'.
Proof.
  intros c fuel text s b PO.
  destruct (rat_assemble true false c PO fuel text s (set_log s b)) as [A R]; [apply agree_log; eauto|].
  split; auto. apply agree_log. exact A.
Qed.
Print Assumptions C35_assemble.
Theorem C35_link : forall c lk s b, plugins_oblivious true false c -> linker_oblivious true false lk ->
  snd (link c lk (set_log s b)) = snd (link c lk s) /\
  exists b', fst (link c lk (set_log s b)) = set_log (fst (link c lk s)) b'.
Proof.
  intros c lk s b PO LO.
  destruct (rat_link true false c lk PO LO s (set_log s b)) as [A R]; [apply agree_log; eauto|].
  split; auto. apply agree_log. exact A.
Qed.
Print Assumptions C35_link.

(** A .log statement can be removed from any block of statements. *)
Theorem C35_removed : forall c fuel t0 ops l ss1 ss2 s, plugins_oblivious true false c -> names c t0 D_log ->
  snd (exec c fuel (ss1 ++ Stmt KDirective (t0 :: ops) l :: ss2) s) = snd (exec c fuel (ss1 ++ ss2) s) /\
  exists b, fst (exec c fuel (ss1 ++ Stmt KDirective (t0 :: ops) l :: ss2) s) =
            set_log (fst (exec c fuel (ss1 ++ ss2) s)) b.
Proof.
  intros c fuel t0 ops l ss1 ss2 s PO N. unfold exec. rewrite !iter_app. fold (exec c fuel ss1). unfold bind.
  fold (exec c fuel (Stmt KDirective (t0 :: ops) l :: ss2)). fold (exec c fuel ss2).
  destruct (exec c fuel ss1 s) as [s1 [[]|e]]; cbn [fst snd].
  2:{ split; auto. exists (log s1). destruct s1; reflexivity. }
  change (Stmt KDirective (t0 :: ops) l :: ss2) with ([Stmt KDirective (t0 :: ops) l] ++ ss2).
  unfold exec at 1 3. rewrite iter_app. fold (exec c fuel [Stmt KDirective (t0 :: ops) l]). fold (exec c fuel ss2).
  assert (X : exists b, exec c fuel [Stmt KDirective (t0 :: ops) l] s1 = (set_log s1 b, Ok tt)).
  { unfold exec. cbn [iter]. unfold bind.
    rewrite (directive_run c fuel _ t0 ops l D_log s1 _ N (reads_self _ _)). cbn [run_directive directive_log].
    destruct (map (subst_token (defines s1)) ops) as [|t1 r]; [eexists; reflexivity|].
    cbn [directive_log]. destruct (str_eqb (upper t1) #"ON"); [eexists; reflexivity|].
    destruct (str_eqb (upper t1) #"OFF"); [eexists; reflexivity|].
    exists (log s1). destruct s1; reflexivity. }
  destruct X as [b X]. unfold bind. rewrite X.
  destruct (rat_exec true false c PO fuel ss2 ss2 s1 (set_log s1 b)) as [A R].
  - apply agree_log. eauto.
  - clear. induction ss2; constructor; auto using same_stmt_refl.
  - split; auto. apply agree_log in A. destruct A as [b' A]. exists b'. exact A.
Qed.
Print Assumptions C35_removed.

Example C35_example :
  plugins_oblivious true false demo /\ names demo #".LOG" D_log /\
  let text := lines ["nop"; ".log on"; "ldi x"; "x:"]%string in
  assembled (fst (assemble demo 5 text (init_st []))) = [234; 1; 0; 0] /\
  log (fst (assemble demo 5 text (init_st []))) = true /\
  log (fst (assemble demo 5 (lines ["nop"]%string) (init_st []))) = false.
Proof.
  split; [apply demo_oblivious|]. split; [vm_compute; reflexivity|]. cbv zeta.
  repeat (split; [vm_compute; reflexivity|]). vm_compute. reflexivity.
Qed.

(** ** C27 *)

Lemma assemble_exec : forall c fuel text ss s, tokenize text = Ok ss ->
  assemble c fuel text s = (exec c fuel ss ;; assemble_tail c) s.
Proof. intros c fuel text ss s T. unfold exec. destruct fuel; cbn [assemble]; unfold bind at 1, lift; rewrite T; reflexivity. Qed.

Lemma close_agree : forall s, agree false true s (close_section s).
Proof.
  intros s. pose proof (agree_refl false true s) as A. rewrite close_section_eq.
  destruct A as (E1 & E2 & E3 & E4 & E5 & E6 & E7 & E8 & E9 & E10 & E11 & E12 & E13 & E14 & E15 & E16 & E17 & E18).
  unfold agree. cbn [set_sections assembled labels current_org current_org_end org_counter labels_addresses
      macros macro_recording repeat_ log sections current_section exports defines cartridge_set x86_bits
      elf_header relocations].
  repeat (split; [assumption|]). split; [|tauto]. clear.
  unfold close_section. destruct (current_section s) as [[|ch n]|] eqn:CS; auto.
  destruct (dget str_eqb (sections s) (ch :: n)) as [x|] eqn:E; auto.
  cbn [sections set_sections forget_end]. rewrite dget_dset_same, E, dset_dset. reflexivity.
Qed.

(** assemble(a) then assemble(b) has the result of assemble(a + newline + b), when a is a
    complete text, b has no misplaced colon, and the origin is unbounded after a. *)
Theorem C27_pieces : forall c fuel a b ssa ssb s, plugins_oblivious false true c ->
  0 <= fill_value (c_p c) < 256 -> source 1 ssa a -> tokenize b = Ok ssb ->
  (snd (assemble c fuel a s) = Ok tt -> current_org_end (fst (assemble c fuel a s)) = 0) ->
  let pieces := (assemble c fuel a ;; assemble c fuel b) s in
  let whole := assemble c fuel (a ++ newline :: b) s in
  snd whole = snd pieces /\ agree false true (fst pieces) (fst whole) /\
  (snd whole = Ok tt -> sections (fst whole) = sections (fst pieces)).
Proof.
  intros c fuel a b ssa ssb s PO FV SA TB HE pieces whole.
  assert (AG : snd whole = snd pieces /\ agree false true (fst pieces) (fst whole)).
  { unfold pieces, whole. pose proof (tokenize_app a b ssa SA) as TW. rewrite TB in TW. cbn [rbind] in TW.
    assert (TA : tokenize a = Ok ssa) by (apply C11_grammar; auto).
    rewrite (assemble_exec _ _ _ _ _ TA) in HE.
    assert (EW : assemble c fuel (a ++ newline :: b) s =
      match exec c fuel ssa s with
      | (s1, Ok _) => (exec c fuel (shift_lines (newlines a + 1) ssb) ;; assemble_tail c) s1
      | (s1, Err e) => (s1, Err e) end).
    { rewrite (assemble_exec _ _ _ _ _ TW). unfold bind at 1. unfold exec at 1. rewrite iter_app.
      unfold bind. fold (exec c fuel ssa). destruct (exec c fuel ssa s) as [s1 [[]|e]]; reflexivity. }
    assert (EP : (assemble c fuel a ;; assemble c fuel b) s =
      match exec c fuel ssa s with
      | (s1, Ok _) => match assemble_tail c s1 with
                      | (s2, Ok _) => (exec c fuel ssb ;; assemble_tail c) s2
                      | (s2, Err e) => (s2, Err e) end
      | (s1, Err e) => (s1, Err e) end).
    { unfold bind at 1. rewrite (assemble_exec _ _ _ _ _ TA). unfold bind at 1.
      destruct (exec c fuel ssa s) as [s1 [[]|e]]; [|reflexivity].
      destruct (assemble_tail c s1) as [s2 [[]|e]]; [|reflexivity]. apply (assemble_exec _ _ _ _ _ TB). }
    rewrite EW, EP. unfold bind in HE. clear EW EP.
    destruct (exec c fuel ssa s) as [s1 [[]|e]]; [|split; [reflexivity|apply agree_refl]].
    destruct (assemble_tail c s1) as [s2 r] eqn:T. cbn [fst snd] in HE.
    assert (X : s2 = close_section s1 /\ r = Ok tt).
    { unfold assemble_tail, bind, get in T.
      destruct (0 <? current_org_end s1) eqn:E1; [exfalso|injection T as <- <-; auto].
      apply Z.ltb_lt in E1.
      assert (Y : current_org_end s2 = current_org_end s1 /\ r = Ok tt).
      { assert (CE : forall u, current_org_end (close_section u) = current_org_end u)
          by (intros u; rewrite close_section_eq; reflexivity).
        destruct (current_org s1 + org_counter s1 <? current_org_end s1).
        - rewrite fill_blob_ok in T by auto. cbn [lift append_assembled_bytes modify] in T.
          injection T as <- <-. rewrite CE. auto.
        - injection T as <- <-. rewrite CE. auto. }
      destruct Y as [Y1 Y2]. specialize (HE Y2). lia. }
    destruct X as [-> ->].
    assert (R : rat false true (exec c fuel ssb ;; assemble_tail c)
       (exec c fuel (shift_lines (newlines a + 1) ssb) ;; assemble_tail c) (close_section s1) s1).
    { assert (AG0 : agree false true (close_section s1) s1).
      { pose proof (close_agree s1) as A. clear - A.
        destruct A as (E1 & E2 & E3 & E4 & E5 & E6 & E7 & E8 & E9 & E10 & E11 & E12 & E13 & E14 & E15 & E16 & E17 & E18).
        unfold agree. rewrite E12.
        split; [auto|]. split; [auto|]. split; [auto|]. split; [auto|]. split; [auto|]. split; [auto|]. split.
        { replace (macros (close_section s1)) with (macros s1) by (rewrite close_section_eq; reflexivity).
          clear. induction (macros s1); constructor; auto. apply same_macro_refl. }
        split; [auto|]. split; [auto|]. split; [intros _; symmetry; auto|]. split; [symmetry; exact E11|].
        repeat (split; [auto|]). auto. }
      apply rat_bind.
      - apply rat_exec; auto. clear. unfold shift_lines. induction ssb; constructor; auto.
        repeat split; auto. discriminate.
      - intros _ t1 t2 AT. apply rat_tail. auto. }
    destruct R as [R1 R2]. split; [exact R2|exact R1]. }
  destruct AG as [R A]. split; auto. split; auto. intros OK.
  assert (C1 : exists u, fst whole = close_section u).
  { destruct whole as [w r] eqn:W. cbn [fst snd] in *. rewrite OK in W. eapply assemble_closes. exact W. }
  assert (C2 : exists u, fst pieces = close_section u).
  { rewrite R in OK. unfold pieces in *. unfold bind in *. destruct (assemble c fuel a s) as [s1 [[]|e]]; [|discriminate].
    destruct (assemble c fuel b s1) as [s2 r] eqn:W. cbn [fst snd] in *.
    eapply assemble_closes. rewrite W. f_equal. congruence. }
  destruct C1 as [u C1], C2 as [v C2]. pose proof (close_eq _ _ _ _ A) as E. rewrite C1, C2 in E |- *.
  rewrite !close_idem in E. exact E.
Qed.
Print Assumptions C27_pieces.

(** A text without quote characters is a complete text. *)
Lemma plain_source : forall text ss, tokenize text = Ok ss ->
  forallb (fun c => negb (Ascii.eqb c (ascii_of_nat 34) || Ascii.eqb c (ascii_of_nat 39))) text = true ->
  source 1 ss text.
Proof.
  intros text ss T Q. destruct (C11_grammar_complete _ _ T) as [H|H]; auto. exfalso.
  destruct H as (ss' & pre & m & ps & q & r & t & e & _ & _ & QQ & _ & _ & ->).
  rewrite forallb_forall in Q. specialize (Q q).
  assert (I : In q (pre ++ pieces_text ps ++ q :: r ++ e)).
  { apply in_or_app; right; apply in_or_app; right; left; auto. }
  apply Q in I. destruct QQ as [<-|[<-|[]]]; discriminate I.
Qed.

Example C27_example :
  let a := lines [".section code RX"; ".macro two x"; "ldi x"; "nop"; ".endmacro"; "x:"]%string in
  let b := lines ["two y"; "y: nop"]%string in
  plugins_oblivious false true demo /\ (exists ssa, source 1 ssa a) /\ (exists ssb, tokenize b = Ok ssb) /\
  snd (assemble demo 5 a (init_st [])) = Ok tt /\
  current_org_end (fst (assemble demo 5 a (init_st []))) = 0 /\
  assembled (fst ((assemble demo 5 a ;; assemble demo 5 b) (init_st []))) = [1; 0; 0; 234; 234] /\
  map (fun x => (sc_size (snd x))) (sections (fst ((assemble demo 5 a ;; assemble demo 5 b) (init_st [])))) = [Some 5].
Proof.
  cbv zeta. split; [apply demo_oblivious|]. split.
  { eexists. apply plain_source; vm_compute; reflexivity. }
  split; [eexists; vm_compute; reflexivity|].
  repeat (split; [vm_compute; reflexivity|]). vm_compute. reflexivity.
Qed.

(** With a bounded origin open, the end of each piece is padded as if it were the end of
    the program. *)
Theorem C27_bounded_refuted : exists a b,
  a = lines [".org 0 7"; "nop"]%string /\ b = lines ["nop"]%string /\
  (exists ssa, source 1 ssa a) /\
  assembled (fst ((assemble demo 5 a ;; assemble demo 5 b) (init_st []))) = [234; 0; 0; 0; 0; 0; 0; 0; 234] /\
  assembled (fst (assemble demo 5 (a ++ newline :: b) (init_st []))) = [234; 234; 0; 0; 0; 0; 0; 0].
Proof.
  eexists. eexists. split; [reflexivity|]. split; [reflexivity|].
  split; [eexists; apply plain_source; vm_compute; reflexivity|]. split; vm_compute; reflexivity.
Qed.

(** ** C29 *)

(** The letter case of a mnemonic or macro name does not matter: same state and result,
    outside macro definitions, for names no define mentions, and opcode handlers that
    look at their mnemonic without regard to case. *)
Theorem C29_instructions : forall c fuel asm t0 t0' ops l s, case_sensitive (c_p c) = false ->
  upper t0 = upper t0' -> macro_recording s = None ->
  untouched (defines s) t0 -> untouched (defines s) t0' ->
  (forall k f o s, dget str_eqb (c_instructions c) k = Some (OFun f) -> f (t0 :: o) s = f (t0' :: o) s) ->
  statement_assemble c fuel asm (Stmt KInstruction (t0 :: ops) l) s =
  statement_assemble c fuel asm (Stmt KInstruction (t0' :: ops) l) s.
Proof.
  intros c fuel asm t0 t0' ops l s CS U MR U1 U2 F. cbn [statement_assemble s_kind s_tokens s_line].
  assert (S : forall t, untouched (defines s) t ->
    substitute_with_dict (t :: ops) (defines s) 0 = t :: map (subst_token (defines s)) ops).
  { intros t T. unfold substitute_with_dict. cbn [firstn skipn app map]. f_equal.
    pose proof (map_subst_untouched (defines s) [t] (Forall_cons _ T (Forall_nil _))) as X. cbn [map] in X.
    injection X as X. exact X. }
  assert (O : forall o, opcode_assemble c (upper t0') (t0 :: o) s = opcode_assemble c (upper t0') (t0' :: o) s).
  { intros o. unfold opcode_assemble. destruct (dget str_eqb (c_instructions c) (upper t0')) as [[b|f]|] eqn:E; auto.
    unfold bind, call_handler. rewrite (F _ _ _ _ E). reflexivity. }
  set (ops' := map (subst_token (defines s)) ops) in *.
  assert (G : forall t, untouched (defines s) t -> instruction_assemble c fuel l Fresh (t :: ops) s =
    match dget str_eqb (macros s) (upper t) with
    | Some m => match fuel with
                | 0%nat => praise RecursionError
                | Datatypes.S f => macro_loop (instruction_assemble c f l) (upper t) (m_args m) ops' (length (m_body m)) 0
                end s
    | None => opcode_assemble c (upper t) (t :: ops') s
    end).
  { intros t T. destruct fuel; cbn [instruction_assemble]; unfold bind at 1, get; rewrite MR; cbv zeta;
      rewrite (S t) by auto; cbn [store_tokens]; unfold bind at 1, ret; unfold bind at 1;
      cbn [tok_at nth_error]; unfold ret; cbv beta iota zeta; rewrite CS;
      destruct (dget str_eqb (macros s) (upper t)); reflexivity. }
  rewrite (G t0), (G t0'), U by auto. destruct (dget str_eqb (macros s) (upper t0')); auto.
Qed.
Print Assumptions C29_instructions.

(** The letter case of a directive name does not matter, in any state. *)
Theorem C29_directives : forall c fuel asm t0 t0' ops l s, case_sensitive (c_p c) = false ->
  upper (skipn 1 t0) = upper (skipn 1 t0') ->
  (forall k f o s, dget str_eqb (c_directives c) k = Some (D_custom f) -> f (t0 :: o) s = f (t0' :: o) s) ->
  statement_assemble c fuel asm (Stmt KDirective (t0 :: ops) l) s =
  statement_assemble c fuel asm (Stmt KDirective (t0' :: ops) l) s.
Proof.
  intros c fuel asm t0 t0' ops l s CS U F. cbn [statement_assemble s_kind s_tokens].
  unfold directive_assemble, bind at 1 3, get. cbv zeta.
  assert (S : forall t, substitute_with_dict (t :: ops) (defines s) 1 = t :: map (subst_token (defines s)) ops)
    by reflexivity.
  rewrite !S. unfold bind. cbn [tok_at nth_error]. unfold ret. cbv beta iota zeta.
  change (if case_sensitive (c_p c) then skipn 1 t0 else upper (skipn 1 t0)) with
    (if case_sensitive (c_p c) then skipn 1 t0 else upper (skipn 1 t0)).
  rewrite CS, U.
  destruct (dget str_eqb (c_directives c) (upper (skipn 1 t0'))) as [d|] eqn:E; [|reflexivity].
  destruct d; try reflexivity. cbn [run_directive]. eapply F; eauto.
Qed.
Print Assumptions C29_directives.

Example C29_example :
  let s := demo_state [".macro twice"; "nop"; "nop"; ".endmacro"]%string in
  upper #"LdI" = upper #"ldi" /\ untouched (defines s) #"LdI" /\ macro_recording s = None /\
  assembled (fst (assemble demo 5 (lines ["LdI $12"; "TWIce"; ".Db 1"]%string) s)) = [1; 18; 0; 234; 234; 1] /\
  assembled (fst (assemble demo 5 (lines ["ldi $12"; "twice"; ".dB 1"]%string) s)) = [1; 18; 0; 234; 234; 1].
Proof.
  cbv zeta. split; [reflexivity|]. split; [apply untouched_nil|].
  repeat (split; [vm_compute; reflexivity|]). vm_compute. reflexivity.
Qed.

(** Defined names are replaced before the mnemonic is looked up, with regard to case. *)
Theorem C29_defines_refuted : exists a b,
  a = lines [".define NOP ldi"; "NOP 5"]%string /\ b = lines [".define NOP ldi"; "nop 5"]%string /\
  snd (assemble demo 5 a (init_st [])) = Ok tt /\
  snd (assemble demo 5 b (init_st [])) = Err (AExc InvalidOpCodeArguments).
Proof.
  eexists. eexists. split; [reflexivity|]. split; [reflexivity|]. split; vm_compute; reflexivity.
Qed.
Print Assumptions C27_bounded_refuted.
Print Assumptions C29_defines_refuted.
