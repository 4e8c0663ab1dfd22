(** Property C39: processors with well-behaved opcode handlers get all guarantees about
    the assembler; the 6502 is one of them. *)
From Coq Require Import Lia.
From Verif Require Import Py PyFacts Utils Tokenizer State Assembler SpecUtils SpecSubst SpecExec SpecLink SpecSim
  SpecMacro SpecTok UtilsFacts Events ExecFacts SpecCpu CpuFacts FitFacts SpecPlace PlaceFacts
  PropsExec PropsLink PropsRuns PropsMacro Mos6502 FitMos Demo PropsMos PropsPlace.
Local Open Scope Z_scope.

Section Fit.
  Context (c : cfg) (F : fits c).

  (** Whatever the operands and the state, a handler adds references and delivers bytes,
      nothing or an error; all other parts of the state stay as they were. *)
  Theorem C39_frame : forall k f tokens s, dget str_eqb (c_instructions c) k = Some (OFun f) ->
    exists refs r, f tokens s = (set_labels_addresses s refs, r) /\
      forall b, r = Ok (Some b) -> Forall is_byte b.
  Proof.
    intros k f tokens s D. destruct F as (H & _). destruct (H k f D tokens s) as (ds & r & E & _ & _ & B).
    rewrite referring_same in E. eauto.
  Qed.

  Lemma fit_passes : forall R, passes_keep R c.
  Proof. destruct F as (_ & _ & (N1 & N2) & _). intros R m s I. rewrite N1, N2 in I. destruct I. Qed.
  Lemma fit_dummy : forall R : st -> st -> Prop, (forall s, R s s) -> forall lk, lk = dummy_linker -> linker_keeps R lk.
  Proof. intros R RR lk ->. split; intros; apply RR. Qed.

  (** Labels are never changed. *)
  Theorem C39_labels : forall s s', history c (fun lk => lk = dummy_linker) s s' ->
    forall name d, dget str_eqb (labels s) name = Some d -> dget str_eqb (labels s') name = Some d.
  Proof.
    intros s s' H. apply (C15_write_once c (fun lk => lk = dummy_linker));
      [|apply fit_passes|apply fit_dummy; intros; apply extends_refl|exact H].
    apply fits_keep_fields; auto; intros; apply extends_refl.
  Qed.
  (** Output is only appended to. *)
  Theorem C39_output : forall fuel text s,
    extends (assembled s) (assembled (fst (assemble c fuel text s))).
  Proof. intros. apply C16_append_only. apply fits_keep_fields; auto; intros; [apply extends_refl|eexists; reflexivity]. Qed.
  (** The program counter counts the bytes. *)
  Theorem C39_pc : forall fuel text s, program_free c (fun d n => moves_origin d n \/ reserves d n) text ->
    in_step s (fst (assemble c fuel text s)).
  Proof.
    intros. apply C16_pc_exact; auto. apply fits_keep_fields; auto; intros; unfold in_step, pc; cbn; [lia|]. rewrite zlen_app. lia.
  Qed.
  (** Output consists of bytes, before and after linking. *)
  Theorem C39_bytes : forall defs s, byte_files c -> history c (fun lk => lk = dummy_linker) (init_st defs) s ->
    Forall is_byte (assembled s).
  Proof.
    intros defs s B H. apply (C17_bytes c (fun lk => lk = dummy_linker) defs);
      [apply fits_bytes; auto| |apply fit_passes|intros lk ->; apply dummy_bytes|exact H].
    apply fits_keep; auto.
    - intros s1 ds S [X Y]. split; [rewrite referring_same; exact X|apply referring_hooks; auto].
    - intros s1 bits b FB [X Y]. split; [apply Forall_app; auto|exact Y].
  Qed.
  (** The macro being recorded exists. *)
  Theorem C39_recording : forall defs s, history c (fun lk => lk = dummy_linker) (init_st defs) s ->
    forall key, macro_recording s = Some key -> exists m, dget str_eqb (macros s) key = Some m.
  Proof.
    intros defs s H. apply (C30_recorded_exists c (fun lk => lk = dummy_linker) defs); [|apply fit_passes|apply fit_dummy; auto|exact H].
    apply fits_keep_fields; auto.
  Qed.
  (** Sections tile the output and their names are unique. *)
  Lemma fit_sections : plugins_keep sections_untouched c.
  Proof. apply fits_keep_fields; auto; intros; repeat split; [apply extends_refl|eexists; reflexivity]. Qed.
  Theorem C39_sections : forall fuel text defs s s', history c (fun _ => False) (init_st defs) s ->
    assemble c fuel text s = (s', Ok tt) -> ~ In [] (map fst (sections s')) ->
    tiled (map snd (sections s')) (zlen (assembled s')) /\ NoDup (map fst (sections s')).
  Proof.
    intros fuel text defs s s' H A N. split; [eapply C31_tiling; eauto using fit_sections|].
    apply (C32_unique c defs); [apply fit_sections|]. replace s' with (fst (assemble c fuel text s)) by (rewrite A; auto).
    apply h_assemble. exact H.
  Qed.
  (** Assembling in pieces. *)
  Theorem C39_pieces : forall fuel a b ssa ssb s, 0 <= fill_value (c_p c) < 256 -> source 1 ssa a ->
    tokenize b = Ok ssb ->
    (snd (assemble c fuel a s) = Ok tt -> current_org_end (fst (assemble c fuel a s)) = 0) ->
    let pieces := (assemble c fuel a ;; assemble c fuel b) s in
    let whole := assemble c fuel (a ++ newline :: b) s in
    snd whole = snd pieces /\ agree false true (fst pieces) (fst whole) /\
    (snd whole = Ok tt -> sections (fst whole) = sections (fst pieces)).
  Proof. intros. eapply C27_pieces; eauto. apply fits_oblivious; auto. Qed.
  (** Logging changes nothing. *)
  Theorem C39_log : forall fuel t0 ops l ss1 ss2 s, names c t0 D_log ->
    snd (exec c fuel (ss1 ++ Stmt KDirective (t0 :: ops) l :: ss2) s) = snd (exec c fuel (ss1 ++ ss2) s) /\
    exists b, fst (exec c fuel (ss1 ++ Stmt KDirective (t0 :: ops) l :: ss2) s) =
              set_log (fst (exec c fuel (ss1 ++ ss2) s)) b.
  Proof. intros. apply C35_removed; auto. apply fits_oblivious; auto. Qed.
  (** Macro calls do what their expansion does. *)
  Theorem C39_expansion : forall s t out, macro_recording s = None ->
    expands c (macros s) (defines s) [] t out ->
    exists depth, forall fuel asm l, (depth <= fuel)%nat ->
      let call := statement_assemble c fuel asm (Stmt KInstruction t l) s in
      let flat := run_opcodes c out s in
      snd call = snd flat /\ set_macros (fst call) (macros s) = fst flat /\
      (snd call = Ok tt -> fst call = fst flat /\ macros (fst call) = macros s).
  Proof. intros. apply C14_expansion; auto. apply fits_macros; auto. Qed.
End Fit.
Print Assumptions C39_frame.
Print Assumptions C39_labels.
Print Assumptions C39_output.
Print Assumptions C39_pc.
Print Assumptions C39_bytes.
Print Assumptions C39_recording.
Print Assumptions C39_sections.
Print Assumptions C39_pieces.
Print Assumptions C39_log.
Print Assumptions C39_expansion.

(** The 6502, whatever files there are. *)
Theorem C39_mos6502 : forall e, fits (mos6502 e) /\ handlers neat (mos6502 e).
Proof. exact mos_fits. Qed.
Print Assumptions C39_mos6502.

Example C39_example :
  let c := mos6502 demo_env in
  let s := mos_state [".macro twice a"; "lda a"; "sta a"; ".endmacro"; ".section text RX"; "x: twice x"; "beq x"]%string in
  fits c /\ history c (fun lk => lk = dummy_linker) (init_st []) s /\
  assembled s = [0xA5; 0; 0x85; 0; 0xF0; 0] /\ ~ In [] (map fst (sections s)) /\
  map fst (sections s) = [#"text"] /\ pc s = 6.
Proof.
  cbv zeta. split; [apply mos_fits|]. split; [apply h_assemble, h_start|].
  split; [vm_compute; reflexivity|]. split; [vm_compute; intros [H|[]]; discriminate|]. split; vm_compute; reflexivity.
Qed.
