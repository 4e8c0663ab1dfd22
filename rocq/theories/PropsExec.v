(** C15 labels, C16 append only, C17 bytes, C28 instruction failures, C30 modes,
    C31 section tiling, C32 unique names. *)
From Coq Require Import Lia.
From Verif Require Import Py PyFacts Utils Tokenizer State Assembler SpecUtils SpecTok SpecSubst SubstFacts
  Events SpecExec ExecFacts Demo.
Local Open Scope Z_scope.

(** ** How statements run *)

Lemma reads_map : forall s ops ops', reads s ops ops' -> map (subst_token (defines s)) ops = ops'.
Proof.
  induction 1; auto. cbn [map]. f_equal; auto.
  eapply substituted_unique; eauto. apply subst_token_substituted.
Qed.
Lemma reads_self : forall s ops, reads s ops (map (subst_token (defines s)) ops).
Proof. induction ops; constructor; auto. apply subst_token_substituted. Qed.

Lemma directive_run : forall c fuel asm t0 ops l d s ops', names c t0 d -> reads s ops ops' ->
  statement_assemble c fuel asm (Stmt KDirective (t0 :: ops) l) s
    = run_directive c asm d (t0 :: ops') s.
Proof.
  intros c fuel asm t0 ops l d s ops' N R. cbn [statement_assemble s_kind s_tokens].
  unfold directive_assemble, bind at 1, get.
  change (substitute_with_dict (t0 :: ops) (defines s) 1) with (t0 :: map (subst_token (defines s)) ops).
  rewrite (reads_map _ _ _ R). unfold bind at 1. cbn [tok_at nth_error]. unfold ret.
  cbv beta iota zeta.
  match goal with |- match ?X with _ => _ end s = _ => change X with (dget str_eqb (c_directives c)
    (if case_sensitive (c_p c) then skipn 1 t0 else upper (skipn 1 t0))) end.
  unfold names in N. rewrite N. reflexivity.
Qed.

Lemma instruction_run : forall c fuel asm tokens l s t0 ops, reads s tokens (t0 :: ops) ->
  macro_recording s = None -> dget str_eqb (macros s) (op_key c t0) = None ->
  statement_assemble c fuel asm (Stmt KInstruction tokens l) s
    = opcode_assemble c (op_key c t0) (t0 :: ops) s.
Proof.
  intros c fuel asm tokens l s t0 ops R MR MC. cbn [statement_assemble s_kind s_tokens s_line].
  destruct fuel; cbn [instruction_assemble]; unfold bind at 1, get; rewrite MR; cbv zeta;
    unfold substitute_with_dict; cbn [firstn skipn app]; rewrite (reads_map _ _ _ R);
    cbn [store_tokens]; unfold bind at 1, ret; unfold bind at 1; cbn [tok_at nth_error]; unfold ret;
    cbv beta iota zeta; unfold op_key in MC; rewrite MC; reflexivity.
Qed.

(** ** C15 *)

(** Defining a label records the program counter and the open section, and changes
    nothing else. *)
Theorem C15_definition : forall c fuel asm name rest l s s',
  statement_assemble c fuel asm (Stmt KLabel (name :: rest) l) s = (s', Ok tt) ->
  exists d, s' = set_labels s (labels s ++ [(name, d)]) /\
    lb_org d + lb_base d = pc s /\ lb_section d = current_section s /\
    dget str_eqb (labels s) name = None /\ dget str_eqb (labels s') name = Some d.
Proof.
  intros c fuel asm name rest l s s' H. cbn [statement_assemble s_kind s_tokens] in H.
  unfold label_assemble, bind at 1, get in H. destruct (macro_recording s); [discriminate|].
  unfold bind at 1 in H. cbn [tok_at nth_error] in H. unfold ret in H.
  destruct (dmem str_eqb (labels s) name) eqn:M; [discriminate|].
  destruct (negb (is_valid_name name)); [discriminate|]. unfold bind, m_parse_integer in H.
  destruct (parse_integer (c_p c) (labels s) name 64 false) as [[v|]|e]; try discriminate.
  injection H as <-. eexists. rewrite dset_new by auto. split; [reflexivity|]. cbn. unfold pc.
  split; [lia|]. split; [reflexivity|]. unfold dmem in M.
  destruct (dget str_eqb (labels s) name) eqn:D; [discriminate|]. split; [reflexivity|].
  apply dget_last. intros I. apply dmem_In in I. unfold dmem in I. rewrite D in I. discriminate.
Qed.
Print Assumptions C15_definition.

(** A name already defined, a name with a foreign character and a number are
    rejected; the state is unchanged. *)
Theorem C15_rejected : forall c fuel asm name rest l s, macro_recording s = None ->
  let run := statement_assemble c fuel asm (Stmt KLabel (name :: rest) l) s in
  ((exists d, dget str_eqb (labels s) name = Some d) -> run = (s, Err (AExc LabelAlreadyDefined))) /\
  (dget str_eqb (labels s) name = None -> ~ Forall name_char name ->
     run = (s, Err (AExc InvalidLabel))) /\
  (dget str_eqb (labels s) name = None -> Forall name_char name ->
     (exists v, parse_integer (c_p c) (labels s) name 64 false = Ok (Some v)) ->
     run = (s, Err (AExc InvalidLabel))).
Proof.
  intros c fuel asm name rest l s MR. cbv zeta. cbn [statement_assemble s_kind s_tokens].
  assert (RUN : label_assemble c (name :: rest) s =
    match dget str_eqb (labels s) name with
    | Some _ => (s, Err (AExc LabelAlreadyDefined))
    | None => if negb (is_valid_name name) then (s, Err (AExc InvalidLabel)) else
       match parse_integer (c_p c) (labels s) name 64 false with
       | Ok (Some _) => (s, Err (AExc InvalidLabel))
       | Err e => (s, Err e)
       | Ok None => (set_labels s (dset str_eqb (labels s) name
                      (MkLabel (org_counter s) (current_org s) (current_section s))), Ok tt)
       end
    end).
  { unfold label_assemble, bind at 1, get. rewrite MR. unfold bind at 1. cbn [tok_at nth_error].
    unfold ret, dmem. destruct (dget str_eqb (labels s) name); [reflexivity|].
    destruct (negb (is_valid_name name)); [reflexivity|]. unfold bind, m_parse_integer.
    destruct (parse_integer (c_p c) (labels s) name 64 false) as [[v|]|e]; reflexivity. }
  rewrite RUN.
  assert (V : is_valid_name name = true <-> Forall name_char name).
  { unfold is_valid_name. rewrite forallb_forall, Forall_forall.
    split; intros H x I; apply valid_name_char_spec; auto. }
  split; [|split].
  - intros [d ->]. reflexivity.
  - intros -> N. destruct (is_valid_name name); [tauto|]. reflexivity.
  - intros -> N [v P]. apply V in N. rewrite N, P. reflexivity.
Qed.
Print Assumptions C15_rejected.

(** Whatever happens later (assembling, failing, linking), a defined label keeps its
    value.  Plug-ins (opcode handlers, extra directives, passes, linkers) must
    themselves not tamper with existing labels. *)
Theorem C15_write_once : forall c (lks : linker -> Prop),
  let keeps := fun s s' => extends (labels s) (labels s') in
  plugins_keep keeps c -> passes_keep keeps c -> (forall lk, lks lk -> linker_keeps keeps lk) ->
  forall s s', history c lks s s' ->
  extends (labels s) (labels s') /\
  forall name d, dget str_eqb (labels s) name = Some d -> dget str_eqb (labels s') name = Some d.
Proof.
  intros c lks keeps P PS L s s' H.
  assert (E : extends (labels s) (labels s')).
  { apply (history_keep labels_kept c lks); auto.
    - intros. apply extends_refl.
    - intros a b d. apply extends_trans.
    - apply labels_event. exact P.
    - intros. apply extends_refl. }
  split; auto. destruct E as [t ->]. intros name d. clear. generalize (labels s) as x.
  induction x as [|[k v] x IH]; cbn [dget app]; [discriminate|]. destruct (str_eqb name k); auto.
Qed.
Print Assumptions C15_write_once.

Example C15_example :
  let s := demo_state ["a: nop"; "b: ldi a"]%string in
  dget str_eqb (labels s) #"b" = Some (MkLabel 1 0 None) /\
  plugins_keep (fun s s' => extends (labels s) (labels s')) demo /\
  snd (assemble demo 5 #"a: nop" s) = Err (AExc LabelAlreadyDefined) /\
  history demo (fun lk => lk = dummy_linker) s (fst (link demo dummy_linker s)).
Proof.
  cbv zeta. split; [vm_compute; reflexivity|]. split; [|split; [vm_compute; reflexivity|]].
  - apply demo_plugins; intros; apply extends_refl.
  - apply h_link; [apply h_start|reflexivity].
Qed.

(** ** C16 *)

(** The old output is a prefix of the new one, whether or not assembling succeeds. *)
Theorem C16_append_only : forall c fuel text s,
  plugins_keep (fun s s' => extends (assembled s) (assembled s')) c ->
  extends (assembled s) (assembled (fst (assemble c fuel text s))).
Proof.
  intros c fuel text s P. apply (events_keep c (registered c) output_kept).
  - intros. apply extends_refl.
  - intros a b d. apply extends_trans.
  - apply output_event. exact P.
  - apply assemble_registered.
Qed.
Print Assumptions C16_append_only.

Lemma free_allowed : forall c bad text, text_free c bad text ->
  text_allowed c (fun d tokens => registered c d tokens /\ ~ bad d (length tokens - 1)%nat) text.
Proof.
  intros c bad text F ss T. apply Forall_forall. intros [k tokens l] I K d tokens' D L. cbn in *.
  subst k. destruct tokens as [|t0 ops]; [discriminate|]. split; [eexists; exact D|].
  rewrite L. cbn [length]. rewrite Nat.sub_succ, Nat.sub_0_r. eapply F; eauto.
Qed.

(** Without a change of origin the program counter advances by the number of bytes
    emitted plus the reservations made by .ram. *)
Theorem C16_pc : forall c fuel text s, plugins_keep in_step c ->
  program_free c moves_origin text ->
  let s' := fst (assemble c fuel text s) in
  exists rs, Forall (fun r => 1 <= r) rs /\
    pc s' - pc s = zlen (assembled s') - zlen (assembled s) + total rs.
Proof.
  intros c fuel text s P [F1 F2]. cbv zeta.
  set (R := fun s s' => exists rs, Forall (fun r => 1 <= r) rs /\
    pc s' - pc s = zlen (assembled s') - zlen (assembled s) + total rs).
  assert (Z0 : forall a b, in_step a b -> R a b).
  { intros a b I. exists []. split; auto. cbn [total]. unfold in_step in I. lia. }
  assert (T : forall l m, total (l ++ m) = total l + total m).
  { induction l; intros m; cbn [app total]; [lia|rewrite IHl; lia]. }
  apply (events_keep c (fun d tokens => registered c d tokens /\
            ~ moves_origin d (length tokens - 1)%nat) R).
  - intros a. apply Z0. unfold in_step. lia.
  - intros a b d (r1 & A1 & E1) (r2 & A2 & E2). exists (r1 ++ r2). split; [apply Forall_app; auto|].
    rewrite T. lia.
  - destruct P as [P1 P2]. intros a b E. destruct E;
      try (apply Z0; unfold in_step, pc; cbn; rewrite ?zlen_app; lia).
    + apply Z0. eapply P1; eauto.
    + destruct H as [[k H] _]. apply Z0. eapply P2; eauto.
    + exfalso. destruct H as [_ N]. apply N. destruct H0 as [->|[-> ->]]; [left|right]; auto.
    + exfalso. destruct H as [_ N]. apply N. destruct H0 as [->|[-> ->]]; [left|right]; auto.
    + exists [n]. split; [constructor; auto|]. unfold pc. cbn. lia.
    + rewrite close_section_eq. apply Z0. unfold in_step, pc. cbn. lia.
    + cbv zeta. rewrite close_section_eq. apply Z0. unfold in_step, pc. cbn. lia.
  - apply runs_assemble; [intros n t X; eapply free_allowed; eauto|apply free_allowed; auto].
Qed.
Print Assumptions C16_pc.

(** Without reservations they advance together. *)
Theorem C16_pc_exact : forall c fuel text s, plugins_keep in_step c ->
  program_free c (fun d n => moves_origin d n \/ reserves d n) text ->
  in_step s (fst (assemble c fuel text s)).
Proof.
  intros c fuel text s P [F1 F2].
  apply (events_keep c (fun d tokens => registered c d tokens /\
            ~ (moves_origin d (length tokens - 1)%nat \/ reserves d (length tokens - 1)%nat)) in_step).
  - intros a. unfold in_step. lia.
  - intros a b d. unfold in_step. lia.
  - destruct P as [P1 P2]. intros a b E. destruct E;
      try (unfold in_step, pc; cbn; rewrite ?zlen_app; lia).
    + eapply P1; eauto.
    + destruct H as [[k H] _]. eapply P2; eauto.
    + exfalso. destruct H as [_ N]. apply N. left. destruct H0 as [->|[-> ->]]; [left|right]; auto.
    + exfalso. destruct H as [_ N]. apply N. left. destruct H0 as [->|[-> ->]]; [left|right]; auto.
    + exfalso. destruct H as [_ N]. apply N. right. reflexivity.
    + rewrite close_section_eq. unfold in_step, pc. cbn. lia.
    + cbv zeta. rewrite close_section_eq. unfold in_step, pc. cbn. lia.
  - apply runs_assemble; [intros n t X; eapply (free_allowed c (fun d n => moves_origin d n \/ reserves d n)); eauto
                         |apply (free_allowed c (fun d n => moves_origin d n \/ reserves d n)); auto].
Qed.
Print Assumptions C16_pc_exact.

Definition c16_text : str := lines ["nop"; ".fill 3 $7"; ".align 8"; "ldi x"; "zork"]%string.
Example C16_example :
  program_free demo (fun d n => moves_origin d n \/ reserves d n) c16_text /\
  plugins_keep in_step demo /\
  plugins_keep (fun s s' => extends (assembled s) (assembled s')) demo /\
  let s := demo_state [".org $100"; "nop"]%string in
  snd (assemble demo 5 c16_text s) = Err (AExc UnknownInstruction) /\
  assembled (fst (assemble demo 5 c16_text s)) = [234; 234; 7; 7; 7; 0; 0; 0; 1; 0; 0] /\
  pc (fst (assemble demo 5 c16_text s)) = 267.
Proof.
  split; [split|split; [|split; [|cbv zeta; split; [|split]; vm_compute; reflexivity]]].
  - intros ss l t0 ops d T. vm_compute in T. injection T as <-.
    intros I. cbn [In] in I.
    repeat (destruct I as [I|I]; [try discriminate I; injection I as <- <- _; intros E; vm_compute in E;
      injection E as <-; intros [[H|[H _]]|H]; discriminate|]). contradiction.
  - intros n t H. cbn [demo mk_cfg c_env file_text demo_env] in H.
    destruct (str_eqb n #"inc.s"); [|discriminate]. injection H as <-.
    intros ss l t0 ops d T. vm_compute in T. injection T as <-.
    intros I. cbn [In] in I. repeat (destruct I as [I|I]; [discriminate I|]). contradiction.
  - apply demo_plugins; intros; unfold in_step, pc; cbn; lia.
  - apply demo_plugins; intros; apply extends_refl.
Qed.

(** ** C17 *)

(** Every state reachable from a fresh assembler holds only bytes. *)
Theorem C17_bytes : forall c (lks : linker -> Prop) defs,
  let keeps := fun s s' => byte_state s -> byte_state s' in
  byte_tables c -> plugins_keep keeps c -> passes_keep keeps c ->
  (forall lk, lks lk -> linker_keeps keeps lk /\
     forall s b, byte_state s -> snd (lk_link lk s) = Ok b -> Forall is_byte b) ->
  forall s, history c lks (init_st defs) s -> Forall is_byte (assembled s).
Proof.
  intros c lks defs keeps T P PS L s H.
  apply (bytes_history c lks T P PS L _ _ H). split; [constructor|].
  intros a d h addr v out [].
Qed.
Print Assumptions C17_bytes.

Lemma dummy_bytes : linker_keeps (fun s s' => byte_state s -> byte_state s') dummy_linker /\
  forall s b, byte_state s -> snd (lk_link dummy_linker s) = Ok b -> Forall is_byte b.
Proof.
  split; [split|]; try (intros; auto; fail). intros s b [B _] H. injection H as <-. exact B.
Qed.

Example C17_example :
  plugins_keep (fun s s' => byte_state s -> byte_state s') demo /\ byte_tables demo /\
  let s := demo_state ["a: bra a"; ".db_to_ascii a"; ".db 255,-1"; "ldi a"]%string in
  let s' := fst (link demo dummy_linker s) in
  history demo (fun lk => lk = dummy_linker) (init_st []) s' /\
  assembled s' = [2; 254; 48; 48; 48; 255; 255; 1; 0; 0].
Proof.
  split; [|split; [apply demo_bytes|split]].
  - apply demo_plugins; [auto|]. intros s d P [B1 B2]. split; [exact B1|].
    cbn. apply byte_hooks_ref; auto.
  - apply h_link; [|reflexivity]. apply h_assemble. apply h_start.
  - vm_compute. reflexivity.
Qed.

(** ** C28 *)

(** The outcome of an instruction as a function of what its handler did, for an
    arbitrary handler. *)
Theorem C28_handler : forall c fuel asm tokens l s t0 ops f s1 r, reads s tokens (t0 :: ops) ->
  macro_recording s = None -> dget str_eqb (macros s) (op_key c t0) = None ->
  dget str_eqb (c_instructions c) (op_key c t0) = Some (OFun f) ->
  f (t0 :: ops) s = (s1, r) ->
  let run := statement_assemble c fuel asm (Stmt KInstruction tokens l) s in
  match r with
  | Ok (Some b) =>
      run = (set_counter (set_assembled s1 (assembled s1 ++ b)) (org_counter s1 + zlen b), Ok tt)
  | Ok None => run = (s1, Err (AExc InvalidInstruction))
  | Err (AExc e) => run = (s1, Err (AExc e))
  | Err (PExc _) => run = (s1, Err (AExc InvalidInstruction))
  end.
Proof.
  intros c fuel asm tokens l s t0 ops f s1 r R MR MC T F. cbv zeta.
  rewrite (instruction_run c fuel asm tokens l s t0 ops R MR MC). unfold opcode_assemble. rewrite T.
  unfold bind, call_handler. rewrite F. destruct r as [[b|]|[e|e]]; reflexivity.
Qed.
Print Assumptions C28_handler.

(** Hence, for handlers that leave output and program counter alone: success with
    exactly the handler's bytes, or an AssemblerException and no output. *)
Theorem C28_outcome : forall c fuel asm tokens l s t0 ops f, reads s tokens (t0 :: ops) ->
  macro_recording s = None -> dget str_eqb (macros s) (op_key c t0) = None ->
  dget str_eqb (c_instructions c) (op_key c t0) = Some (OFun f) ->
  (forall s tokens, assembled (fst (f tokens s)) = assembled s /\ pc (fst (f tokens s)) = pc s) ->
  let s' := fst (statement_assemble c fuel asm (Stmt KInstruction tokens l) s) in
  let r := snd (statement_assemble c fuel asm (Stmt KInstruction tokens l) s) in
  (exists b, snd (f (t0 :: ops) s) = Ok (Some b) /\ r = Ok tt /\
     assembled s' = assembled s ++ b /\ pc s' = pc s + zlen b) \/
  ((forall b, snd (f (t0 :: ops) s) <> Ok (Some b)) /\ (exists e, r = Err (AExc e)) /\
     assembled s' = assembled s /\ pc s' = pc s).
Proof.
  intros c fuel asm tokens l s t0 ops f R MR MC T K. cbv zeta.
  destruct (f (t0 :: ops) s) as [s1 r] eqn:F. specialize (K s (t0 :: ops)). rewrite F in K.
  cbn [fst] in K. destruct K as [K1 K2].
  pose proof (C28_handler c fuel asm tokens l s t0 ops f s1 r R MR MC T F) as H. cbv zeta in H.
  destruct r as [[b|]|[e|e]]; rewrite H; cbn [fst snd].
  - left. exists b. repeat split; cbn; [rewrite K1; auto|]. unfold pc in *. cbn. lia.
  - right. repeat split; auto; [discriminate|eauto].
  - right. repeat split; auto; [discriminate|eauto].
  - right. repeat split; auto; [discriminate|eauto].
Qed.
Print Assumptions C28_outcome.

(** Static opcodes take no operands; unknown mnemonics are reported. *)
Theorem C28_static : forall c fuel asm tokens l s t0 ops, reads s tokens (t0 :: ops) ->
  macro_recording s = None -> dget str_eqb (macros s) (op_key c t0) = None ->
  let run := statement_assemble c fuel asm (Stmt KInstruction tokens l) s in
  (forall b, dget str_eqb (c_instructions c) (op_key c t0) = Some (OStatic b) ->
     (ops = [] -> run = (set_counter (set_assembled s (assembled s ++ b)) (org_counter s + zlen b), Ok tt)) /\
     (ops <> [] -> run = (s, Err (AExc InvalidOpCodeArguments)))) /\
  (dget str_eqb (c_instructions c) (op_key c t0) = None -> run = (s, Err (AExc UnknownInstruction))).
Proof.
  intros c fuel asm tokens l s t0 ops R MR MC. cbv zeta.
  rewrite (instruction_run c fuel asm tokens l s t0 ops R MR MC). unfold opcode_assemble. split.
  - intros b ->. split; [intros ->; reflexivity|]. destruct ops; [congruence|]. reflexivity.
  - intros ->. reflexivity.
Qed.
Print Assumptions C28_static.

(** Whatever instruction statement is assembled, macros included, any builtin
    exception is IndexError or RecursionError (both come from macro calls or from an
    empty statement); every other failure is an AssemblerException. *)
Theorem C28_error_kinds : forall c fuel line tokens s s' e,
  instruction_assemble c fuel line Fresh tokens s = (s', Err (PExc e)) ->
  e = IndexError \/ e = RecursionError.
Proof.
  intros c.
  assert (G : forall fuel line pl tokens s s' e,
    instruction_assemble c fuel line pl tokens s = (s', Err (PExc e)) ->
    e = IndexError \/ e = RecursionError); [|intros; eauto].
  assert (ST : forall pl tokens s, exists s', store_tokens pl tokens s = (s', Ok tt)).
  { intros [|k i] tokens s; eexists; reflexivity. }
  assert (OP : forall key tokens s s' e, opcode_assemble c key tokens s <> (s', Err (PExc e))).
  { intros key tokens s s' e H. unfold opcode_assemble in H.
    destruct (dget str_eqb (c_instructions c) key) as [[b|f]|]; try discriminate.
    - destruct (negb (len_in tokens [1]%nat)); discriminate.
    - unfold bind, call_handler in H. destruct (f tokens s) as [s1 [[b|]|[x|x]]]; discriminate. }
  assert (MD : forall ps args d e, macro_dict ps args d = Err e -> e = PExc IndexError).
  { induction ps; intros [|a' args] d e H; cbn in H; try discriminate; try congruence. eauto. }
  assert (ML : forall run key params args,
    (forall pl tokens s s' e, run pl tokens s = (s', Err (PExc e)) -> e = IndexError \/ e = RecursionError) ->
    forall n i s s' e, macro_loop run key params args n i s = (s', Err (PExc e)) ->
    e = IndexError \/ e = RecursionError).
  { intros run key params args HR. induction n; intros i s s' e H; cbn [macro_loop] in H; [discriminate|].
    unfold bind at 1, get in H. destruct (dget str_eqb (macros s) key); [|discriminate].
    destruct (nth_error (m_body m) i); [|discriminate]. cbv zeta in H. unfold bind at 1, lift in H.
    destruct (macro_dict params args []) eqn:D; [|apply MD in D; subst; left; congruence].
    unfold bind at 1 in H. destruct (ST (InMacro key i) (substitute_with_dict (s_tokens s0) a 0) s) as [s2 E2].
    rewrite E2 in H. unfold bind at 1 in H.
    destruct (run (InMacro key i) (substitute_with_dict (s_tokens s0) a 0) s2) as [s3 [u|x]] eqn:E3.
    - unfold bind at 1 in H. destruct (ST (InMacro key i) (s_tokens s0) s3) as [s4 E4].
      rewrite E4 in H. eauto.
    - injection H as -> ->. eauto. }
  induction fuel; intros line pl tokens s s' e H; cbn [instruction_assemble] in H;
    unfold bind at 1, get in H; (destruct (macro_recording s); [discriminate|]); cbv zeta in H;
    unfold bind at 1 in H;
    destruct (ST pl (substitute_with_dict tokens (defines s) 0) s) as [s1 E1]; rewrite E1 in H;
    unfold bind at 1 in H; unfold tok_at in H;
    (destruct (nth_error _ 0) as [t0|]; [|injection H as <- <-; auto]); unfold ret in H;
    destruct (dget str_eqb (macros s) _); try (exfalso; eapply OP; exact H).
  - injection H as <- <-. auto.
  - eapply ML; [|exact H]. intros pl' tk' a b e' HH. eapply IHfuel; exact HH.
Qed.
Print Assumptions C28_error_kinds.

(** A macro called with too few arguments escapes as IndexError. *)
Theorem C28_macro_arguments_refuted : exists text,
  snd (assemble demo 5 text (init_st [])) = Err (PExc IndexError).
Proof. exists (lines [".macro m a"; "nop"; ".endmacro"; "m"]%string). vm_compute. reflexivity. Qed.
Print Assumptions C28_macro_arguments_refuted.

Example C28_example :
  let s := demo_state ["nop"]%string in
  reads s [#"boom"; #"1"] [#"boom"; #"1"] /\ macro_recording s = None /\
  dget str_eqb (macros s) (op_key demo #"boom") = None /\
  dget str_eqb (c_instructions demo) (op_key demo #"boom") = Some (OFun (fun _ => praise KeyError)) /\
  snd (assemble demo 5 #"boom 1" s) = Err (AExc InvalidInstruction) /\
  snd (assemble demo 5 #"none" s) = Err (AExc InvalidInstruction) /\
  snd (assemble demo 5 #"ldi $10000" s) = Err (AExc (NotInBitRange 65536 16 None)) /\
  snd (assemble demo 5 #"nop 1" s) = Err (AExc InvalidOpCodeArguments) /\
  assembled (fst (assemble demo 5 #"ldi $1234" s)) = [234; 1; 52; 18].
Proof.
  cbv zeta. split; [|repeat split; vm_compute; reflexivity].
  apply (reads_self (demo_state ["nop"]%string) [#"boom"; #"1"]).
Qed.

(** ** C30 *)

Theorem C30_brackets : forall c fuel asm t0 ops l s,
  let run := statement_assemble c fuel asm (Stmt KDirective (t0 :: ops) l) s in
  (names c t0 D_macro -> macro_recording s <> None ->
     run = (s, Err (AExc UnsupportedNestedMacro))) /\
  (names c t0 D_endmacro -> macro_recording s = None ->
     run = (s, Err (AExc NotInMacroRecordingMode))) /\
  (names c t0 D_repeat -> repeat_ s <> None -> run = (s, Err (AExc UnsupportedNestedRepeat))) /\
  (names c t0 D_endrepeat -> repeat_ s = None -> run = (s, Err (AExc NotInRepeatMode))) /\
  (names c t0 D_endmacro -> macro_recording s <> None ->
     run = (set_macro_recording s None, Ok tt)).
Proof.
  intros c fuel asm t0 ops l s. cbv zeta. pose proof (reads_self s ops) as R.
  repeat split; intros N H; rewrite (directive_run _ _ _ _ _ _ _ _ _ N R); cbn [run_directive].
  - unfold macro_start, bind, get. destruct (macro_recording s); [reflexivity|congruence].
  - unfold macro_end, bind, get. rewrite H. reflexivity.
  - unfold directive_repeat, bind, get. destruct (repeat_ s); [reflexivity|congruence].
  - unfold directive_end_repeat, bind, get. rewrite H. reflexivity.
  - unfold macro_end, bind, get. destruct (macro_recording s); [reflexivity|congruence].
Qed.
Print Assumptions C30_brackets.

(** While recording, instructions are appended verbatim to the macro being recorded
    and have no other effect; labels are rejected. *)
Theorem C30_recording : forall c fuel asm s key m, macro_recording s = Some key ->
  dget str_eqb (macros s) key = Some m ->
  (forall tokens l, let s' := fst (statement_assemble c fuel asm (Stmt KInstruction tokens l) s) in
     snd (statement_assemble c fuel asm (Stmt KInstruction tokens l) s) = Ok tt /\
     s' = set_macros s (macros s') /\
     (forall k, dget str_eqb (macros s') k =
        if str_eqb k key then Some (MkMacro (m_args m) (m_body m ++ [Stmt KInstruction tokens l]))
        else dget str_eqb (macros s) k)) /\
  (forall tokens l, statement_assemble c fuel asm (Stmt KLabel tokens l) s
     = (s, Err (AExc LabelNotAllowedInMacro))).
Proof.
  intros c fuel asm s key m MR MM. split.
  - intros tokens l. cbv zeta. cbn [statement_assemble s_kind s_tokens s_line].
    destruct fuel; cbn [instruction_assemble]; unfold bind, get, modify; rewrite MR, MM; cbn [fst snd];
      (split; [reflexivity|split; [reflexivity|]]); intros k; cbn [macros set_macros]; apply dget_dset.
  - intros tokens l. cbn [statement_assemble s_kind s_tokens]. unfold label_assemble, bind, get.
    rewrite MR. reflexivity.
Qed.
Print Assumptions C30_recording.

(** The macro being recorded always exists, in every reachable state. *)
Theorem C30_recorded_exists : forall c (lks : linker -> Prop) defs,
  let keeps := fun s s' => macros s' = macros s /\ macro_recording s' = macro_recording s in
  plugins_keep keeps c -> passes_keep keeps c -> (forall lk, lks lk -> linker_keeps keeps lk) ->
  forall s, history c lks (init_st defs) s ->
  forall key, macro_recording s = Some key -> exists m, dget str_eqb (macros s) key = Some m.
Proof.
  intros c lks defs keeps [P1 P2] PS L s H.
  set (I := fun s => forall key, macro_recording s = Some key -> exists m, dget str_eqb (macros s) key = Some m).
  assert (K : forall a b, keeps a b -> I a -> I b).
  { intros a b [K1 K2] HI key HK. rewrite K2 in HK. rewrite K1. auto. }
  apply (history_keep (fun a b => I a -> I b) c lks) with (a := init_st defs); auto.
  - intros a b E HI. destruct E; try exact HI.
    + eapply K; [eapply P1; eauto|exact HI].
    + destruct H0 as [k H0]. eapply K; [eapply P2; eauto|exact HI].
    + intros k X. cbn in *. injection X as <-. exists (MkMacro args []). rewrite dget_dset, str_eqb_refl.
      reflexivity.
    + intros k X. discriminate X.
    + intros k X. cbn in *. rewrite dget_dset. destruct (str_eqb k key); eauto.
    + rewrite close_section_eq. exact HI.
    + cbv zeta. rewrite close_section_eq. exact HI.
  - intros m s0 Im HI. eapply K; [apply PS; exact Im|exact HI].
  - intros lk X. destruct (L lk X) as [L1 L2]. split; intros; eapply K; eauto.
  - intros key X. discriminate X.
Qed.
Print Assumptions C30_recorded_exists.

Example C30_example :
  let s := demo_state [".macro m a"; "ldi a"]%string in
  macro_recording s = Some #"M" /\ names demo #".MACRO" D_macro /\ names demo #".endrepeat" D_endrepeat /\
  dget str_eqb (macros s) #"M" = Some (MkMacro [#"a"] [Stmt KInstruction [#"ldi"; #"a"] 2]) /\
  repeat_ s = None /\ repeat_ (demo_state [".repeat 2"]%string) = Some (2, 0) /\
  history demo (fun _ => False) (init_st []) s.
Proof.
  repeat (split; [vm_compute; reflexivity|]). apply h_assemble, h_start.
Qed.

(** ** C31 *)

(** After a successful assemble, sections tile the output from the first one on. *)
Lemma tiling_from : forall c fuel text i s s', plugins_keep sections_untouched c ->
  sections i = [] -> current_section i = None -> history c (fun _ => False) i s ->
  assemble c fuel text s = (s', Ok tt) ->
  ~ In [] (map fst (sections s')) ->
  tiled (map snd (sections s')) (zlen (assembled s')).
Proof.
  intros c fuel text i s s' P S0 C0 H A N.
  assert (EV : events c (registered c) i s').
  { assert (E0 : events c (registered c) i s).
    { clear - H. induction H; [constructor| |contradiction].
      eapply events_trans; [apply IHhistory; auto|]. apply assemble_registered. }
    eapply events_trans; [exact E0|]. pose proof (assemble_registered c fuel text s) as E1.
    rewrite A in E1. exact E1. }
  assert (I : sect_inv s').
  { apply (events_keep c (registered c) (fun a b => sect_inv a -> sect_inv b)) with (a := i); auto.
    - apply sect_event. exact P.
    - unfold sect_inv. rewrite S0, C0. split; [constructor|]. split; [reflexivity|]. intros _. exact I. }
  destruct (assemble_closes c fuel text s s' A) as [s1 E].
  assert (C : close_section s' = s') by (rewrite E; apply close_idem).
  destruct (close_inv s' I) as (_ & T & _). rewrite C in T. auto.
Qed.
Theorem C31_tiling : forall c fuel text defs s s', plugins_keep sections_untouched c ->
  history c (fun _ => False) (init_st defs) s ->
  assemble c fuel text s = (s', Ok tt) ->
  ~ In [] (map fst (sections s')) ->
  tiled (map snd (sections s')) (zlen (assembled s')).
Proof. intros c fuel text defs s s' P H. exact (tiling_from c fuel text (init_st defs) s s' P eq_refl eq_refl H). Qed.
Print Assumptions C31_tiling.

(** The start of a section is fixed when it is declared: its file offset is the
    length of the output and its address the program counter at that point. *)
Theorem C31_declaration : forall c fuel asm t0 ops l s s' nm perms name, names c t0 D_section ->
  reads s ops [nm; perms] -> string_operand nm name ->
  statement_assemble c fuel asm (Stmt KDirective (t0 :: ops) l) s = (s', Ok tt) ->
  dget str_eqb (sections s) name = None /\ current_section s' = Some name /\
  dget str_eqb (sections s') name
    = Some (MkSection (pc s) (zlen (assembled s)) perms None None) /\
  assembled s' = assembled s /\ pc s' = pc s.
Proof.
  intros c fuel asm t0 ops l s s' nm perms name N R SO H.
  rewrite (directive_run _ _ _ _ _ _ _ _ _ N R) in H. cbn [run_directive] in H.
  unfold directive_section in H. cbn [len_in existsb length Nat.eqb negb orb] in H.
  assert (ST : stringify nm = Ok name).
  { destruct SO as [q t Q|x t Q1 Q2]; unfold stringify, is_quoted, rbind.
    - replace (Ascii.eqb q dquote || Ascii.eqb q squote) with true
        by (destruct Q as [-> | ->]; reflexivity).
      f_equal. apply inner_quoted.
    - apply Ascii.eqb_neq in Q1, Q2. rewrite Q1, Q2. reflexivity. }
  unfold bind at 1 in H. cbn [tok_at nth_error] in H. unfold ret in H.
  unfold bind at 1, lift in H. rewrite ST in H. unfold bind at 1, get in H.
  destruct (dmem str_eqb (sections s) name) eqn:D; [discriminate|]. unfold bind at 1 in H.
  match type of H with context [if ?b then _ else _] => destruct b end; [discriminate|].
  unfold bind, modify in H. injection H as <-. destruct (close_same s) as (A & PC & C & _).
  cbn [sections set_sections current_section assembled pc current_org org_counter].
  rewrite dget_dset, str_eqb_refl, A, PC. unfold dmem in D.
  destruct (dget str_eqb (sections s) name); [discriminate|]. repeat split; auto.
Qed.
Print Assumptions C31_declaration.

Definition c31_text : str :=
  lines ["nop"; ".section a RX"; "nop"; ".section b R $40"; ".section 'c' RW"; "ldi 5"]%string.
Example C31_example :
  plugins_keep sections_untouched demo /\
  let s' := fst (assemble demo 5 c31_text (init_st [])) in
  assemble demo 5 c31_text (init_st []) = (s', Ok tt) /\
  map (fun x => (fst x, sc_offset (snd x), sc_size (snd x))) (sections s')
    = [(#"a", 1, Some 1); (#"b", 2, Some 0); (#"c", 2, Some 3)] /\
  ~ In [] (map fst (sections s')) /\ assembled s' = [234; 234; 1; 5; 0].
Proof.
  split; [|cbv zeta; split; [|split; [|split]]]; [|vm_compute; reflexivity..| |vm_compute; reflexivity].
  - apply demo_plugins; intros; repeat split; apply extends_refl.
  - vm_compute. intros H. repeat (destruct H as [H|H]; [discriminate H|]). contradiction.
Qed.

(** ** C32 *)

Theorem C32_unique : forall c defs s, plugins_keep sections_untouched c ->
  history c (fun _ => False) (init_st defs) s ->
  NoDup (map fst (sections s)) /\ NoDup (exports s).
Proof.
  intros c defs s P H.
  assert (EV : events c (registered c) (init_st defs) s).
  { clear - H. remember (init_st defs) as i. induction H; [constructor| |contradiction].
    eapply events_trans; [apply IHhistory; auto|]. apply assemble_registered. }
  split.
  - apply (events_keep c (registered c) (fun a b => sect_inv a -> sect_inv b)) with (a := init_st defs); auto.
    + apply sect_event. exact P.
    + split; [constructor|]. split; [reflexivity|]. intros _. exact I.
  - apply (events_keep c (registered c) (fun a b => NoDup (exports a) -> NoDup (exports b))) with (a := init_st defs); auto.
    + apply exports_event. exact P.
    + constructor.
Qed.
Print Assumptions C32_unique.

(** Once declared, a section keeps its start, offset and permissions. *)
Theorem C32_persistent : forall c fuel text s, plugins_keep sections_untouched c ->
  sections_persist s (fst (assemble c fuel text s)).
Proof.
  intros c fuel text s P. apply (events_keep c (registered c) sections_persist).
  - apply persist_refl.
  - apply persist_trans.
  - apply persist_event. exact P.
  - apply assemble_registered.
Qed.
Print Assumptions C32_persistent.

(** Redeclaring raises and leaves the state as it was. *)
Theorem C32_redeclared : forall c fuel asm t0 ops l s nm name, string_operand nm name ->
  let run := statement_assemble c fuel asm (Stmt KDirective (t0 :: ops) l) s in
  (forall more, names c t0 D_section -> reads s ops (nm :: more) -> In (length more) [1; 2]%nat ->
     (exists sc, dget str_eqb (sections s) name = Some sc) ->
     run = (s, Err (AExc SectionAlreadyDefined))) /\
  (names c t0 D_export -> reads s ops [nm] -> In name (exports s) ->
     run = (s, Err (AExc SymbolAlreadyExported))) /\
  (names c t0 D_export -> reads s ops [nm] -> ~ In name (exports s) ->
     run = (set_exports s (exports s ++ [name]), Ok tt)).
Proof.
  intros c fuel asm t0 ops l s nm name SO. cbv zeta.
  assert (ST : stringify nm = Ok name).
  { destruct SO as [q t Q|x t Q1 Q2]; unfold stringify, is_quoted, rbind.
    - replace (Ascii.eqb q dquote || Ascii.eqb q squote) with true
        by (destruct Q as [-> | ->]; reflexivity).
      f_equal. apply inner_quoted.
    - apply Ascii.eqb_neq in Q1, Q2. rewrite Q1, Q2. reflexivity. }
  assert (SI : str_in name (exports s) = true <-> In name (exports s)).
  { unfold str_in. rewrite existsb_exists. split.
    - intros (x & I & E). apply str_eqb_spec in E. subst. exact I.
    - intros I. exists name. split; auto. apply str_eqb_refl. }
  split; [|split].
  - intros more N R L [sc D]. rewrite (directive_run _ _ _ _ _ _ _ _ _ N R). cbn [run_directive].
    unfold directive_section.
    replace (negb (len_in (t0 :: nm :: more) [3; 4]%nat)) with false
      by (destruct more as [|x [|y [|z more]]]; cbn in L; try reflexivity; exfalso; lia).
    unfold bind at 1. cbn [tok_at nth_error]. unfold ret.
    unfold bind at 1, lift. rewrite ST. unfold bind at 1, get. unfold dmem. rewrite D. reflexivity.
  - intros N R I. rewrite (directive_run _ _ _ _ _ _ _ _ _ N R). cbn [run_directive].
    unfold directive_export. cbn [len_in existsb length Nat.eqb negb orb].
    unfold bind at 1. cbn [tok_at nth_error]. unfold ret.
    unfold bind at 1, lift. rewrite ST. unfold bind at 1, get. apply SI in I. rewrite I. reflexivity.
  - intros N R I. rewrite (directive_run _ _ _ _ _ _ _ _ _ N R). cbn [run_directive].
    unfold directive_export. cbn [len_in existsb length Nat.eqb negb orb].
    unfold bind at 1. cbn [tok_at nth_error]. unfold ret.
    unfold bind at 1, lift. rewrite ST. unfold bind at 1, get.
    destruct (str_in name (exports s)); [tauto|]. reflexivity.
Qed.
Print Assumptions C32_redeclared.

Example C32_example :
  let s := demo_state [".section a RX"; ".export f"; "nop"; ".section b W"]%string in
  sections s = [(#"a", MkSection 0 0 #"RX" (Some 1) (Some 1)); (#"b", MkSection 1 1 #"W" (Some 1) (Some 0))] /\
  string_operand (dquote :: #"a" ++ [dquote]) #"a" /\
  snd (assemble demo 5 (#".section " ++ dquote :: #"a" ++ dquote :: #" R") s)
    = Err (AExc SectionAlreadyDefined) /\
  snd (assemble demo 5 #".export f" s) = Err (AExc SymbolAlreadyExported) /\
  history demo (fun _ => False) (init_st []) s.
Proof.
  split; [vm_compute; reflexivity|]. split; [apply so_quoted; auto|].
  repeat (split; [vm_compute; reflexivity|]). apply h_assemble, h_start.
Qed.
