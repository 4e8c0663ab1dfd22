(** Property C78: linked programs for the consoles. *)
From Coq Require Import Lia.
From Verif Require Import Py PyFacts Utils Tokenizer State Assembler Instr Lr35902 Mos6502 Z80 Demo SpecUtils SpecParse SpecSubst SpecTok
  SpecExec SpecLink SpecCpu SpecPlace SpecByte UtilsFacts Events ExecFacts CpuFacts FitFacts PlaceFacts FitLr FitMos FitZ80 ByteLink Reach PropsPlace
  PropsExec PropsData PropsRuns Platform SpecPlat CartFacts PropsPlat ConsoleFacts CasesText CasesMos CasesByte.
From Verif Require SpecMos PropsMos PropsMosLink SpecLr LrFacts PropsLr SpecZ80 Z80Facts PropsZ80.
Local Open Scope Z_scope.

(** ** NES *)

Section Nes.
Import SpecMos PropsMos PropsMosLink.

(** A branch that links lands on its label, wherever it stands in a program for the NES,
    header directives and pattern tables included. *)
Theorem C78_nes_lands : forall e fuel text s0 s words l s1 s2 s3 t0 t rest op,
  let c := nes e in
  byte_files c -> sane s0 -> cartridge_set s0 = false ->
  passes_through c fuel text s0 s (Stmt KInstruction words l) s1 s2 ->
  opcode_stmt c s words t0 (t :: rest) -> op_of (upper t0) Relative op ->
  not_num mos_p s t 8 true -> no_select t -> no_ops t -> t <> [] -> 0 <= pc s -> short_texts c s2 ->
  link c dummy_linker s2 = (s3, Ok tt) ->
  exists a disp, address_of (labels s2) t a /\
    slice (zlen (assembled s)) 2 (assembled s3) = [op; disp] /\ is_byte disp /\
    (pc s + 2) + sign8 disp = a.
Proof.
  intros e fuel text s0 s words l s1 s2 s3 t0 t rest op c B SN C H OS.
  destruct (nes_sits e fuel text s0 s words l t0 (t :: rest) s1 s2 B SN C H OS) as [S O].
  exact (C37_lands_at e fuel s words l s1 s2 s3 t0 t rest op B S O).
Qed.
Print Assumptions C78_nes_lands.

(** A branch out of reach does not link. *)
Theorem C78_nes_too_far : forall e fuel text s0 s words l s1 s2 t0 t rest op,
  let c := nes e in
  byte_files c -> sane s0 -> cartridge_set s0 = false ->
  passes_through c fuel text s0 s (Stmt KInstruction words l) s1 s2 ->
  opcode_stmt c s words t0 (t :: rest) -> op_of (upper t0) Relative op ->
  not_num mos_p s t 8 true -> no_select t -> no_ops t -> t <> [] -> 0 <= pc s -> short_texts c s2 ->
  (forall a, address_of (labels s2) t a -> ~ -128 <= a - (pc s + 2) < 128) ->
  snd (link c dummy_linker s2) <> Ok tt.
Proof.
  intros e fuel text s0 s words l s1 s2 t0 t rest op c B SN C H OS.
  destruct (nes_sits e fuel text s0 s words l t0 (t :: rest) s1 s2 B SN C H OS) as [S O].
  exact (C37_too_far_at e fuel s words l s1 s2 t0 t rest op B S O).
Qed.
Print Assumptions C78_nes_too_far.

(** An address operand ends up with the bytes of the address it denotes. *)
Theorem C78_nes_operands : forall e fuel text s0 s words l s1 s2 s3 t0 ops o t sh lo,
  let c := nes e in
  byte_files c -> sane s0 -> cartridge_set s0 = false ->
  passes_through c fuel text s0 s (Stmt KInstruction words l) s1 s2 ->
  opcode_stmt c s words t0 ops -> written ops o -> addressed o = Some (t, sh, lo) ->
  (forall op, ~ op_of (upper t0) Relative op) -> short_texts c s2 ->
  link c dummy_linker s2 = (s3, Ok tt) ->
  exists v, denotes s2 t v /\
    ((exists m op, sh = Some m /\ op_of (upper t0) m op /\ 0 <= v < 256 /\ address s t v /\
        slice (zlen (assembled s)) 2 (assembled s3) = [op; v]) \/
     (exists m op, lo = Some m /\ op_of (upper t0) m op /\ 0 <= v < 65536 /\
        (has (upper t0) sh -> forall w, address s t w -> ~ 0 <= w < 256) /\
        slice (zlen (assembled s)) 3 (assembled s3) = [op; v mod 256; v / 256])).
Proof.
  intros e fuel text s0 s words l s1 s2 s3 t0 ops o t sh lo c B SN C H OS.
  destruct (nes_sits e fuel text s0 s words l t0 ops s1 s2 B SN C H OS) as [S O].
  exact (C38_sound_at e fuel s words l s1 s2 s3 t0 ops o t sh lo B S O).
Qed.
Print Assumptions C78_nes_operands.
End Nes.

(** ** Master System *)

Section Sms.
Import SpecZ80 Z80Facts PropsZ80.

Theorem C78_sms_linked : forall e fuel text s0 s words l s1 s2 s3 t0 ops pre suf ks vs,
  let c := sms e in
  byte_files c -> sane s0 -> cartridge_set s0 = false ->
  passes_through c fuel text s0 s (Stmt KInstruction words l) s1 s2 ->
  opcode_stmt c s words t0 ops -> ~ odd (upper t0) ops ->
  In (upper t0, (pre, suf, ks)) manual -> operands ks ops vs -> 0 <= pc s -> short_texts c s2 ->
  link c dummy_linker s2 = (s3, Ok tt) ->
  exists b, final_layout z_p s s2 pre suf vs b /\ slice (zlen (assembled s)) (zlen b) (assembled s3) = b.
Proof.
  intros e fuel text s0 s words l s1 s2 s3 t0 ops pre suf ks vs c B SN C H OS.
  destruct (sms_sits e fuel text s0 s words l t0 ops s1 s2 B SN C H OS) as [S O].
  exact (C56_linked_at e fuel s words l s1 s2 s3 t0 ops pre suf ks vs B S O).
Qed.
Print Assumptions C78_sms_linked.
Theorem C78_sms_jump : forall e fuel text s0 s words l s1 s2 s3 t0 ops op t,
  let c := sms e in
  byte_files c -> sane s0 -> cartridge_set s0 = false ->
  passes_through c fuel text s0 s (Stmt KInstruction words l) s1 s2 ->
  opcode_stmt c s words t0 ops -> jump_form (upper t0) ops op t ->
  not_num z_p s t 8 true -> no_select t -> no_ops t -> t <> [] -> 0 <= pc s -> short_texts c s2 ->
  link c dummy_linker s2 = (s3, Ok tt) ->
  exists a disp, address_of (labels s2) t a /\
    slice (zlen (assembled s)) 2 (assembled s3) = [op; disp] /\ is_byte disp /\
    (pc s + 2) + PropsMosLink.sign8 disp = a.
Proof.
  intros e fuel text s0 s words l s1 s2 s3 t0 ops op t c B SN C H OS.
  destruct (sms_sits e fuel text s0 s words l t0 ops s1 s2 B SN C H OS) as [S O].
  exact (C56_jump_at e fuel s words l s1 s2 s3 t0 ops op t B S O).
Qed.
Print Assumptions C78_sms_jump.
Theorem C78_sms_too_far : forall e fuel text s0 s words l s1 s2 t0 ops op t,
  let c := sms e in
  byte_files c -> sane s0 -> cartridge_set s0 = false ->
  passes_through c fuel text s0 s (Stmt KInstruction words l) s1 s2 ->
  opcode_stmt c s words t0 ops -> jump_form (upper t0) ops op t ->
  not_num z_p s t 8 true -> no_select t -> no_ops t -> t <> [] -> 0 <= pc s -> short_texts c s2 ->
  (forall a, address_of (labels s2) t a -> ~ -128 <= a - (pc s + 2) < 128) ->
  snd (link c dummy_linker s2) <> Ok tt.
Proof.
  intros e fuel text s0 s words l s1 s2 t0 ops op t c B SN C H OS.
  destruct (sms_sits e fuel text s0 s words l t0 ops s1 s2 B SN C H OS) as [S O].
  exact (C56_too_far_at e fuel s words l s1 s2 t0 ops op t B S O).
Qed.
Print Assumptions C78_sms_too_far.
End Sms.

(** ** Game Boy *)

Lemma gb_slice : forall e s2 s3, link (gameboy e) dummy_linker s2 = (s3, Ok tt) ->
  exists t, link (lr35902 e) dummy_linker s2 = (t, Ok tt) /\
    forall a n, 0 <= a -> 0 <= n -> a + n <= 0x14D \/ 0x150 <= a -> slice a n (assembled s3) = slice a n (assembled t).
Proof.
  intros e s2 s3 H. destruct (C45_header e s2 s3 H) as (_ & _ & t & LK & (D1 & D2) & _). exists t. split; [exact LK|].
  intros a n A N P. unfold slice. apply slice_ext. intros i I.
  assert (L : length (assembled s3) = length (assembled t)) by (unfold zlen in D1; lia).
  destruct (Nat.lt_ge_cases i (length (assembled t))) as [K|K].
  - specialize (D2 (Z.of_nat i) ltac:(lia) ltac:(cbn [In]; lia)). unfold byte_at in D2. rewrite Nat2Z.id in D2.
    rewrite !(nth_error_nth' _ 0) by lia. f_equal. exact D2.
  - rewrite !(proj2 (nth_error_None _ _)) by lia. reflexivity.
Qed.

Section Gb.
Import SpecLr LrFacts PropsLr.

(** The instruction lies clear of the checksums. *)
Definition off_checksum (s s1 : st) : Prop := zlen (assembled s1) <= 0x14D \/ 0x150 <= zlen (assembled s).

(** With a cartridge header in the program every instruction does, and clear of the header
    as well. *)
Theorem C78_gb_clear : forall e fuel text s0 s words l t0 ops s1 s2 h dops dl h1,
  let c := gameboy e in
  byte_files c -> sane s0 -> cartridge_set s0 = false ->
  passes_through c fuel text s0 s (Stmt KInstruction words l) s1 s2 -> opcode_stmt c s words t0 ops ->
  passes_through c fuel text s0 h (Stmt KDirective (#".cartridge" :: dops) dl) h1 s2 ->
  zlen (assembled s1) <= 0x100 \/ 0x150 <= zlen (assembled s).
Proof.
  intros e fuel text s0 s words l t0 ops s1 s2 h dops dl h1 c B SN C H OS (ss1 & ss2 & TK & E1 & E2 & E3).
  destruct (gb_sits e fuel text s0 s words l t0 ops s1 s2 B SN C H OS) as (_ & _ & Q). apply Q. clear Q H OS.
  pose proof (gb_neat e) as NE. fold c in NE. pose proof (gb_carted_customs e) as CU. fold c in CU.
  pose proof (carted_closed 256 0x150 0x134 0x14D) as CL. destruct SN as (T0 & _).
  assert (G1 : carted 256 0x150 0x134 0x14D s0 h) by (eapply (runs_exec _ CL c NE CU); eauto).
  assert (G2 : carted 256 0x150 0x134 0x14D h h1) by (eapply (runs_exec _ CL c NE CU); eauto).
  assert (C1 : cartridge_set h1 = true).
  { unfold exec in E2. cbn [iter] in E2. unfold bind in E2.
    assert (N : names c #".cartridge" (D_custom gb_cartridge)) by reflexivity.
    destruct (statement_assemble c _ _ _ h) as [h' [[]|]] eqn:SA; [|discriminate]. injection E2 as <-.
    rewrite (directive_run _ _ _ _ _ _ _ h (map (subst_token (defines h)) dops) N) in SA by apply reads_self.
    cbn [run_directive] in SA. apply cartridge_inv in SA. destruct SA as (_ & x & _ & ->). reflexivity. }
  assert (G3 : carted 256 0x150 0x134 0x14D h1 s2).
  { rewrite (assemble_exec _ _ _ _ _ TK) in E3. unfold exec in E3 at 1. unfold bind at 1 in E3.
    rewrite iter_app in E3. unfold bind at 1 in E3. fold (exec c fuel ss1) in E3. rewrite E1 in E3.
    match type of TK with _ = Ok (_ ++ ?x :: _) => change (x :: ss2) with ([x] ++ ss2) in E3 end. rewrite iter_app in E3. unfold bind at 1 in E3.
    match type of E2 with exec _ _ ?x _ = _ => fold (exec c fuel x) in E3 end. rewrite E2 in E3. fold (exec c fuel ss2) in E3.
    destruct (exec c fuel ss2 h1) as [s' [[]|]] eqn:E4; [|discriminate].
    eapply carted_trans; [eapply (runs_exec _ CL c NE CU); eauto|]. eapply (runs_tail _ CL c); eauto. }
  destruct (G1 T0) as (T1 & _). destruct (G2 T1) as (T2 & _). destruct (G3 T2) as (_ & _ & _ & _ & _ & K & _). exact (K C1).
Qed.
Print Assumptions C78_gb_clear.

Theorem C78_gb_linked : forall e fuel text s0 s words l s1 s2 s3 t0 ops pre ks vs,
  let c := gameboy e in
  byte_files c -> sane s0 -> cartridge_set s0 = false ->
  passes_through c fuel text s0 s (Stmt KInstruction words l) s1 s2 -> off_checksum s s1 ->
  opcode_stmt c s words t0 ops -> upper t0 <> #"BRA" -> ~ odd (upper t0) ops ->
  In (upper t0, (pre, ks)) manual -> operands ks ops vs -> 0 <= pc s -> short_texts c s2 ->
  link c dummy_linker s2 = (s3, Ok tt) ->
  exists b, final_layout gb_p s s2 pre [] vs b /\ slice (zlen (assembled s)) (zlen b) (assembled s3) = b.
Proof.
  intros e fuel text s0 s words l s1 s2 s3 t0 ops pre ks vs c B SN C H OFF OS NB OD I OP PC NT LK.
  destruct (gb_sits e fuel text s0 s words l t0 ops s1 s2 B SN C H OS) as (S & O & _).
  destruct (gb_slice e s2 s3 LK) as (t & LT & SL).
  destruct (C44_linked_at e fuel s words l s1 s2 t t0 ops pre ks vs B S O NB OD I OP PC NT LT) as (b & FL & Q).
  destruct S as (X & _). destruct (C44_laid e fuel s words l s1 t0 ops pre ks vs X O NB OD I OP PC) as (b0 & ds & LO & EM).
  pose proof (final_length _ _ _ _ _ _ _ _ _ LO FL) as LN.
  assert (A : zlen (assembled s1) = zlen (assembled s) + zlen b0).
  { rewrite EM, referring_same. cbn [assembled set_counter set_assembled set_labels_addresses]. apply zlen_app. }
  exists b. split; [exact FL|]. rewrite SL; [exact Q|apply zlen_nonneg|apply zlen_nonneg|]. destruct OFF; [left; lia|right; assumption].
Qed.
Print Assumptions C78_gb_linked.

Theorem C78_gb_jump : forall e fuel text s0 s words l s1 s2 s3 t0 ops op t,
  let c := gameboy e in
  byte_files c -> sane s0 -> cartridge_set s0 = false ->
  passes_through c fuel text s0 s (Stmt KInstruction words l) s1 s2 -> off_checksum s s1 ->
  opcode_stmt c s words t0 ops -> jump_form (upper t0) ops op t ->
  not_num gb_p s t 8 true -> no_select t -> no_ops t -> t <> [] -> 0 <= pc s -> short_texts c s2 ->
  link c dummy_linker s2 = (s3, Ok tt) ->
  exists a disp, address_of (labels s2) t a /\
    slice (zlen (assembled s)) 2 (assembled s3) = [op; disp] /\ is_byte disp /\
    (pc s + 2) + PropsMosLink.sign8 disp = a.
Proof.
  intros e fuel text s0 s words l s1 s2 s3 t0 ops op t c B SN C H OFF OS J NN NS NO NE PC NT LK.
  destruct (gb_sits e fuel text s0 s words l t0 ops s1 s2 B SN C H OS) as (S & O & _).
  destruct (gb_slice e s2 s3 LK) as (u & LT & SL).
  destruct (C44_jump_at e fuel s words l s1 s2 u t0 ops op t B S O J NN NS NO NE PC NT LT) as (a & disp & AD & Q & BY & E).
  exists a, disp. split; [exact AD|]. split; [|auto]. rewrite SL; [exact Q|apply zlen_nonneg|lia|].
  destruct S as (X & _). pose proof J as (cc & I & OP & U).
  assert (NB : upper t0 <> #"BRA") by (rewrite U; discriminate).
  assert (OD : ~ odd (upper t0) ops) by (rewrite U; apply jr_not_odd).
  destruct (C44_laid e fuel s words l s1 t0 ops _ _ _ X O NB OD I OP PC) as (b0 & ds & LO & EM).
  assert (LN : zlen b0 = 2).
  { inversion LO as [|f t' x ds' ST]; subst. inversion ST; reflexivity. }
  assert (A : zlen (assembled s1) = zlen (assembled s) + zlen b0).
  { rewrite EM, referring_same. cbn [assembled set_counter set_assembled set_labels_addresses]. apply zlen_app. }
  destruct OFF; [left; lia|right; assumption].
Qed.
Print Assumptions C78_gb_jump.

Theorem C78_gb_too_far : forall e fuel text s0 s words l s1 s2 t0 ops op t,
  let c := gameboy e in
  byte_files c -> sane s0 -> cartridge_set s0 = false ->
  passes_through c fuel text s0 s (Stmt KInstruction words l) s1 s2 ->
  opcode_stmt c s words t0 ops -> jump_form (upper t0) ops op t ->
  not_num gb_p s t 8 true -> no_select t -> no_ops t -> t <> [] -> 0 <= pc s -> short_texts c s2 ->
  (forall a, address_of (labels s2) t a -> ~ -128 <= a - (pc s + 2) < 128) ->
  snd (link c dummy_linker s2) <> Ok tt.
Proof.
  intros e fuel text s0 s words l s1 s2 t0 ops op t c B SN C H OS J NN NS NO NE PC NT FAR LK.
  destruct (gb_sits e fuel text s0 s words l t0 ops s1 s2 B SN C H OS) as (S & O & _).
  destruct (link c dummy_linker s2) as [s3 r] eqn:E. cbn [snd] in LK. subst r.
  destruct (gb_slice e s2 s3 E) as (u & LT & _).
  apply (C44_too_far_at e fuel s words l s1 s2 t0 ops op t B S O J NN NS NO NE PC NT FAR). rewrite LT. reflexivity.
Qed.
Print Assumptions C78_gb_too_far.
End Gb.

(** ** Concrete programs *)

(** An instruction whose words no define changes. *)
Lemma own_stmt : forall c s t0 ops, macro_recording s = None -> dget str_eqb (macros s) (op_key c t0) = None ->
  map (subst_token (defines s)) (t0 :: ops) = t0 :: ops -> opcode_stmt c s (t0 :: ops) t0 ops.
Proof. intros c s t0 ops R M E. split; [exact R|]. split; [|exact M]. rewrite <- E at 2. apply reads_self. Qed.
Ltac unchanged := apply own_stmt; vm_compute; reflexivity.

Section Cases.
Local Notation nes_c := (nes demo_env).
Local Notation gb_c := (gameboy demo_env).
Local Notation sms_c := (sms demo_env).
Local Notation n0 := (init_st nes_defines).
Local Notation g0 := (init_st gb_defines).
Local Notation m0 := (init_st sms_defines).
Notation before c text n s0 := (fst (exec c 5 (firstn n%nat (stmts_of text)) s0)).
Notation after c x s := (fst (exec c 5 [x] s)).
Notation whole c text s0 := (fst (assemble c 5 text s0)).
Notation image c text s0 := (fst (link c dummy_linker (fst (assemble c 5 text s0)))).

(** The header is filled in after the code was assembled. *)
Definition c78_nes : str := Demo.lines [".cartridge"; ".org $C000"; "wait: bit PPUSTATUS"; "bpl wait"; "lda data"; ".cartridge_prg_roms 1"; "data: .db 7"]%string.
Example C78_nes_image : assembled (image nes_c c78_nes n0) =
  [78; 69; 83; 0x1A; 2; 1; 0; 0; 0; 0; 0; 0; 0; 0; 0; 0; 0x2C; 0x02; 0x20; 0x10; 0xFB; 0xAD; 0x08; 0xC0; 7].
Proof. vm_compute. reflexivity. Qed.
Definition bpl_x : stmt := Stmt KInstruction [#"bpl"; #"wait"] 4.
Definition lda_x : stmt := Stmt KInstruction [#"lda"; #"data"] 5.
Lemma nes_files : byte_files nes_c.
Proof. apply demo_files. reflexivity. Qed.
Example C78_nes_lands_case := C78_nes_lands demo_env 5 c78_nes n0 (before nes_c c78_nes 4 n0) [#"bpl"; #"wait"] 4
  (after nes_c bpl_x (before nes_c c78_nes 4 n0)) (whole nes_c c78_nes n0) (image nes_c c78_nes n0) #"bpl" #"wait" [] 0x10
  nes_files (sane_init _) eq_refl ltac:(reached 4%nat) ltac:(unchanged) ltac:(apply MosFacts.code_op_iff; vm_compute; reflexivity)
  ltac:(computes) ltac:(no_select_in) ltac:(no_ops_in) ltac:(discriminate) ltac:(vm_compute; discriminate) ltac:(untexted) ltac:(done).
Example C78_nes_operands_case := C78_nes_operands demo_env 5 c78_nes n0 (before nes_c c78_nes 5 n0) [#"lda"; #"data"] 5
  (after nes_c lda_x (before nes_c c78_nes 5 n0)) (whole nes_c c78_nes n0) (image nes_c c78_nes n0) #"lda" [#"data"]
  (SpecMos.Direct #"data") #"data" _ _
  nes_files (sane_init _) eq_refl ltac:(reached 5%nat) ltac:(unchanged)
  ltac:(apply SpecMos.w_direct; [exists "d"%char, #"ata"; split; [reflexivity|discriminate]|discriminate]) eq_refl
  ltac:(let I := fresh in intros ? I; apply MosFacts.code_op_iff in I; vm_compute in I; discriminate) ltac:(untexted) ltac:(done).
Definition c78_nes_far : str := Demo.lines [".cartridge"; ".org $C000"; "bpl far"; ".fill 130"; "far: nop"]%string.
Definition bpl_far : stmt := Stmt KInstruction [#"bpl"; #"far"] 3.
Example C78_nes_too_far_case := C78_nes_too_far demo_env 5 c78_nes_far n0 (before nes_c c78_nes_far 2 n0) [#"bpl"; #"far"] 3
  (after nes_c bpl_far (before nes_c c78_nes_far 2 n0)) (whole nes_c c78_nes_far n0) #"bpl" #"far" [] 0x10
  nes_files (sane_init _) eq_refl ltac:(reached 2%nat) ltac:(unchanged) ltac:(apply MosFacts.code_op_iff; vm_compute; reflexivity)
  ltac:(computes) ltac:(no_select_in) ltac:(no_ops_in) ltac:(discriminate) ltac:(vm_compute; discriminate) ltac:(untexted)
  ltac:(out_of_reach 0xC084).

Lemma sms_files : byte_files sms_c.
Proof. apply demo_files. reflexivity. Qed.
Definition c78_sms : str := Demo.lines [".org $100"; "loop: ld a,(JOY1)"; "jr nz,loop"]%string.
Definition jr_x : stmt := Stmt KInstruction c44_words 3.
Example C78_sms_linked_case := C78_sms_linked demo_env 5 c78_sms m0 (before sms_c c78_sms 3 m0) c44_words 3
  (after sms_c jr_x (before sms_c c78_sms 3 m0)) (whole sms_c c78_sms m0) (image sms_c c78_sms m0) #"jr" (tl c44_words) [0x20] []
  [SpecZ80.W #"NZ"; SpecZ80.V Disp] [(Disp, #"loop")]
  sms_files (sane_init _) eq_refl ltac:(reached 3%nat) ltac:(unchanged) c56_not_odd ltac:(apply PropsZ80.in_manual; computes) c56_operands
  ltac:(vm_compute; discriminate) ltac:(untexted) ltac:(done).
Example C78_sms_jump_case := C78_sms_jump demo_env 5 c78_sms m0 (before sms_c c78_sms 3 m0) c44_words 3
  (after sms_c jr_x (before sms_c c78_sms 3 m0)) (whole sms_c c78_sms m0) (image sms_c c78_sms m0) #"jr" (tl c44_words) 0x20 #"loop"
  sms_files (sane_init _) eq_refl ltac:(reached 3%nat) ltac:(unchanged) ltac:(part 2 PropsZ80.C56_example) ltac:(computes)
  ltac:(no_select_in) ltac:(no_ops_in) ltac:(discriminate) ltac:(vm_compute; discriminate) ltac:(untexted) ltac:(done).
Definition c78_far : str := Demo.lines ["jr nz,loop"; ".fill 336"; "loop: dec b"]%string.
Definition jr_far : stmt := Stmt KInstruction c44_words 1.
Example C78_sms_too_far_case := C78_sms_too_far demo_env 5 c78_far m0 (before sms_c c78_far 0 m0) c44_words 1
  (after sms_c jr_far (before sms_c c78_far 0 m0)) (whole sms_c c78_far m0) #"jr" (tl c44_words) 0x20 #"loop"
  sms_files (sane_init _) eq_refl ltac:(reached 0%nat) ltac:(unchanged) ltac:(part 2 PropsZ80.C56_example) ltac:(computes)
  ltac:(no_select_in) ltac:(no_ops_in) ltac:(discriminate) ltac:(vm_compute; discriminate) ltac:(untexted) ltac:(out_of_reach 338).

Lemma gb_files : byte_files gb_c.
Proof. apply demo_files. reflexivity. Qed.
Definition c78_gb : str := Demo.lines [".fill 256"; ".cartridge"; "loop: ldh a,(LY-$FF00)"; "jr nz,loop"; ".cartridge_title ""GAME"""]%string.
Definition jr_gb : stmt := Stmt KInstruction c44_words 4.
Example C78_gb_clear_case := C78_gb_clear demo_env 5 c78_gb g0 (before gb_c c78_gb 4 g0) c44_words 4 #"jr" (tl c44_words)
  (after gb_c jr_gb (before gb_c c78_gb 4 g0)) (whole gb_c c78_gb g0)
  (before gb_c c78_gb 1 g0) [] 2 (after gb_c (Stmt KDirective [#".cartridge"] 2) (before gb_c c78_gb 1 g0))
  gb_files (sane_init _) eq_refl ltac:(reached 4%nat) ltac:(unchanged) ltac:(reached 1%nat).
Lemma c78_off : off_checksum (before gb_c c78_gb 4 g0) (after gb_c jr_gb (before gb_c c78_gb 4 g0)).
Proof. right. vm_compute. discriminate. Qed.
Example C78_gb_linked_case := C78_gb_linked demo_env 5 c78_gb g0 (before gb_c c78_gb 4 g0) c44_words 4
  (after gb_c jr_gb (before gb_c c78_gb 4 g0)) (whole gb_c c78_gb g0) (image gb_c c78_gb g0) #"jr" (tl c44_words) [0x20] _ _
  gb_files (sane_init _) eq_refl ltac:(reached 4%nat) c78_off ltac:(unchanged) ltac:(discriminate) (PropsLr.jr_not_odd _) c44_form c44_operands
  ltac:(vm_compute; discriminate) ltac:(untexted) ltac:(done).
Example C78_gb_jump_case := C78_gb_jump demo_env 5 c78_gb g0 (before gb_c c78_gb 4 g0) c44_words 4
  (after gb_c jr_gb (before gb_c c78_gb 4 g0)) (whole gb_c c78_gb g0) (image gb_c c78_gb g0) #"jr" (tl c44_words) 0x20 #"loop"
  gb_files (sane_init _) eq_refl ltac:(reached 4%nat) c78_off ltac:(unchanged) ltac:(part 2 PropsLr.C44_example) ltac:(computes)
  ltac:(no_select_in) ltac:(no_ops_in) ltac:(discriminate) ltac:(vm_compute; discriminate) ltac:(untexted) ltac:(done).
Example C78_gb_image : slice 0x134 34 (assembled (image gb_c c78_gb g0)) =
  [71; 65; 77; 69; 0; 0; 0; 0; 0; 0; 0; 0; 0; 0; 0; 0; 0; 0; 0; 0; 0; 0; 1; 0x33; 0; 0x99; 0x1A; 0x91; 0xF0; 0x44; 0x20; 0xFC].
Proof. vm_compute. reflexivity. Qed.
Example C78_gb_too_far_case := C78_gb_too_far demo_env 5 c78_far g0 (before gb_c c78_far 0 g0) c44_words 1
  (after gb_c jr_far (before gb_c c78_far 0 g0)) (whole gb_c c78_far g0) #"jr" (tl c44_words) 0x20 #"loop"
  gb_files (sane_init _) eq_refl ltac:(reached 0%nat) ltac:(unchanged) ltac:(part 2 PropsLr.C44_example) ltac:(computes)
  ltac:(no_select_in) ltac:(no_ops_in) ltac:(discriminate) ltac:(vm_compute; discriminate) ltac:(untexted) ltac:(out_of_reach 338).

(** Linking writes the checksums whether the program has a header or not: code at 014D is
    overwritten. *)
Definition c78_code : str := Demo.lines [".fill 333"; "ld a,b"; "nop"; "nop"]%string.
Theorem C78_checksum_refuted :
  let s := before gb_c c78_code 1 g0 in
  let x := Stmt KInstruction [#"ld"; #"a"; #"b"] 2 in
  passes_through gb_c 5 c78_code g0 s x (after gb_c x s) (whole gb_c c78_code g0) /\
  link gb_c dummy_linker (whole gb_c c78_code g0) = (image gb_c c78_code g0, Ok tt) /\
  slice (zlen (assembled s)) 1 (assembled (whole gb_c c78_code g0)) = [0x78] /\
  slice (zlen (assembled s)) 1 (assembled (image gb_c c78_code g0)) = [0xE7].
Proof.
  cbv zeta. split; [reached 1%nat|]. split; [apply fine_pair; vm_compute; reflexivity|]. split; vm_compute; reflexivity.
Qed.
Print Assumptions C78_checksum_refuted.
End Cases.
