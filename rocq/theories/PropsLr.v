(** Property C44: the LR35902. *)
From Coq Require Import Lia.
From Verif Require Import Reach.
From Verif Require Import Py PyFacts Utils Tokenizer State Assembler SpecUtils SpecParse SpecSubst SpecExec SpecLink
  UtilsFacts SpecCpu SpecPlace SpecByte Instr Lr35902 SpecLr CpuFacts WordFacts LrFacts LrEnc ByteLink FitLr LabelMono Demo
  PropsPlace PropsMosLink PropsFit FitFacts.
Local Open Scope Z_scope.

(** An instruction that is not one of the odd notations is accepted exactly if the manual
    has a form for it, and then gives the bytes of that form with its operand. *)
Theorem C44_encoding : forall e s words t0 ops fuel l s', opcode_stmt (lr35902 e) s words t0 ops -> 0 <= pc s ->
  upper t0 <> #"BRA" -> ~ odd (upper t0) ops ->
  exec (lr35902 e) fuel [Stmt KInstruction words l] s = (s', Ok tt) <->
  exists b ds, encodes s (upper t0) ops b ds /\ emitted (referring s ds) b s'.
Proof. exact lr_encoding. Qed.
Print Assumptions C44_encoding.

(** The manual is unambiguous. *)
Lemma one_form : forall m ops, m <> #"BRA" -> ~ odd m ops ->
  forall w1 w2, In w1 (spec_sel (forms_of m) ops) -> In w2 (spec_sel (forms_of m) ops) -> w1 = w2.
Proof.
  intros m ops NB O w1 w2 I1 I2. pose proof (matched_get lr_ops lr_sels m lr_matched) as MG.
  destruct (dget str_eqb lr_ops m) as [h|].
  - destruct MG as ((pss & f) & F & _ & J2 & J3). cbn [fst snd] in *.
    pose proof (compare lr_sels m pss f ops all_agree_true NB F J2 J3 O) as C. apply C in I1, I2. congruence.
  - rewrite (no_forms m MG) in I1. destruct I1.
Qed.
Theorem C44_deterministic : forall s m ops b1 ds1 b2 ds2, m <> #"BRA" -> ~ odd m ops ->
  encodes s m ops b1 ds1 -> encodes s m ops b2 ds2 -> b1 = b2 /\ ds1 = ds2.
Proof.
  intros s m ops b1 ds1 b2 ds2 NB O E1 E2. apply encodes_iff in E1, E2.
  destruct E1 as (p1 & l1 & I1 & L1), E2 as (p2 & l2 & I2 & L2).
  pose proof (one_form m ops NB O _ _ I1 I2) as X. injection X as -> ->. eapply laid_out_det; eauto.
Qed.
Print Assumptions C44_deterministic.

(** In the linked image the instruction consists of the bytes of its form, numbers by their
    value, names by their address or distance. *)
Lemma C44_laid : forall e fuel s words l s1 t0 ops pre ks vs,
  let c := lr35902 e in
  exec c fuel [Stmt KInstruction words l] s = (s1, Ok tt) ->
  opcode_stmt c s words t0 ops -> upper t0 <> #"BRA" -> ~ odd (upper t0) ops ->
  In (upper t0, (pre, ks)) manual -> operands ks ops vs -> 0 <= pc s ->
  exists b ds, laid_out gb_p s pre [] vs b ds /\ emitted (referring s ds) b s1.
Proof.
  intros e fuel s words l s1 t0 ops pre ks vs c X OS NB O I OP PC.
  apply (C44_encoding _ _ _ _ _ _ _ _ OS PC NB O) in X. destruct X as (b & ds & EN & EM).
  apply encodes_iff in EN. destruct EN as (pre' & l' & J & LO).
  apply (operands_iff ks []) in OP. destruct OP as (l'' & K & ->). cbn [app length] in *.
  assert (J2 : In (pre, l'') (spec_sel (forms_of (upper t0)) ops)).
  { unfold spec_sel. apply in_flat_map. exists (pre, ks). split.
    - unfold forms_of. apply in_flat_map. exists (upper t0, (pre, ks)). split; [exact I|].
      rewrite (proj2 (str_eqb_eq (upper t0) (upper t0)) eq_refl). left. reflexivity.
    - rewrite K. left. reflexivity. }
  pose proof (one_form _ ops NB O _ _ J J2) as X. injection X as -> ->. exists b, ds. auto.
Qed.
Lemma C44_linked_at : forall e fuel s words l s1 s2 s3 t0 ops pre ks vs,
  let c := lr35902 e in
  byte_files c -> sits c fuel s (Stmt KInstruction words l) s1 s2 ->
  opcode_stmt c s words t0 ops -> upper t0 <> #"BRA" -> ~ odd (upper t0) ops ->
  In (upper t0, (pre, ks)) manual -> operands ks ops vs -> 0 <= pc s -> short_texts c s2 ->
  link c dummy_linker s2 = (s3, Ok tt) ->
  exists b, final_layout gb_p s s2 pre [] vs b /\ slice (zlen (assembled s)) (zlen b) (assembled s3) = b.
Proof.
  intros e fuel s words l s1 s2 s3 t0 ops pre ks vs c B H OS NB O I OP PC NT LK.
  pose proof H as H'. destruct H' as (X & _).
  destruct (C44_laid e fuel s words l s1 t0 ops pre ks vs X OS NB O I OP PC) as (b & ds & LO & EM).
  destruct (lr_fits e) as [F N].
  exact (laid_linked c fuel s _ s1 s2 s3 b ds F B H EM NT LK eq_refl pre [] vs LO PC).
Qed.
Theorem C44_linked : forall e fuel text s0 s words l s1 s2 s3 t0 ops pre ks vs,
  let c := lr35902 e in
  byte_files c -> sane s0 ->
  passes_through c fuel text s0 s (Stmt KInstruction words l) s1 s2 ->
  opcode_stmt c s words t0 ops -> upper t0 <> #"BRA" -> ~ odd (upper t0) ops ->
  In (upper t0, (pre, ks)) manual -> operands ks ops vs -> 0 <= pc s -> short_texts c s2 ->
  link c dummy_linker s2 = (s3, Ok tt) ->
  exists b, final_layout gb_p s s2 pre [] vs b /\ slice (zlen (assembled s)) (zlen b) (assembled s3) = b.
Proof.
  intros e fuel text s0 s words l s1 s2 s3 t0 ops pre ks vs c B SN H.
  exact (C44_linked_at e fuel s words l s1 s2 s3 t0 ops pre ks vs B (passes_sits _ _ _ _ _ _ _ _ (proj1 (lr_fits e)) (proj2 (lr_fits e)) B SN H)).
Qed.
Print Assumptions C44_linked.

(** A relative jump to a label that links lands on the label. *)
Definition jump_form (m : str) (ops : list str) (op : Z) (t : str) : Prop :=
  exists cc, In (m, ([op], cc ++ [V Disp])) manual /\ operands (cc ++ [V Disp]) ops [(Disp, t)] /\ m = #"JR".
Lemma jr_not_odd : forall ops, ~ odd #"JR" ops.
Proof. intros ops H. inversion H; subst; cbn in *; repeat match goal with X : _ \/ _ |- _ => destruct X as [X|X]; [discriminate|] end; contradiction. Qed.
Lemma jump_linked : forall e fuel s words l s1 s2 s3 t0 ops op t,
  let c := lr35902 e in
  byte_files c -> sits c fuel s (Stmt KInstruction words l) s1 s2 ->
  opcode_stmt c s words t0 ops -> jump_form (upper t0) ops op t ->
  not_num gb_p s t 8 true -> 0 <= pc s -> short_texts c s2 ->
  link c dummy_linker s2 = (s3, Ok tt) ->
  exists v, label_relative gb_p (labels s2) t (pc s + 2) = Ok (Some v) /\ -128 <= v < 128 /\
    slice (zlen (assembled s)) 2 (assembled s3) = [op; v mod 256].
Proof.
  intros e fuel s words l s1 s2 s3 t0 ops op t c B H OS (cc & I & OP & U) NN PC NT LK.
  assert (NB : upper t0 <> #"BRA") by (rewrite U; discriminate).
  assert (O : ~ odd (upper t0) ops) by (rewrite U; apply jr_not_odd).
  destruct (C44_linked_at e fuel s words l s1 s2 s3 t0 ops [op] _ _ B H OS NB O I OP PC NT LK) as (b & FL & SL).
  inversion FL as [|f t' b' SE]; subst. inversion SE; subst.
  - match goal with X : stored _ _ _ _ _ _ _ |- _ => inversion X; subst end. unfold num, not_num in *. congruence.
  - exists v. change (zlen [op]) with 1 in *. replace (pc s + 1 + 1) with (pc s + 2) in * by ring.
    split; [assumption|]. split; [assumption|]. exact SL.
Qed.
Lemma C44_jump_at : forall e fuel s words l s1 s2 s3 t0 ops op t,
  let c := lr35902 e in
  byte_files c -> sits c fuel s (Stmt KInstruction words l) s1 s2 ->
  opcode_stmt c s words t0 ops -> jump_form (upper t0) ops op t ->
  not_num gb_p s t 8 true -> no_select t -> no_ops t -> t <> [] -> 0 <= pc s -> short_texts c s2 ->
  link c dummy_linker s2 = (s3, Ok tt) ->
  exists a disp, address_of (labels s2) t a /\
    slice (zlen (assembled s)) 2 (assembled s3) = [op; disp] /\ is_byte disp /\
    (pc s + 2) + sign8 disp = a.
Proof.
  intros e fuel s words l s1 s2 s3 t0 ops op t c B H OS J NN NS NO NE PC NT LK.
  destruct (jump_linked e fuel s words l s1 s2 s3 t0 ops op t B H OS J NN PC NT LK) as (v & V & RG & SL).
  destruct (plain_relative _ _ _ _ _ NS NO NE V) as (a & A & ->).
  exists a, ((a - (pc s + 2)) mod 256). split; [exact A|]. split; [exact SL|].
  split; [unfold is_byte; apply Z.mod_pos_bound; lia|]. rewrite sign8_mod by exact RG. lia.
Qed.
Theorem C44_jump : forall e fuel text s0 s words l s1 s2 s3 t0 ops op t,
  let c := lr35902 e in
  byte_files c -> sane s0 ->
  passes_through c fuel text s0 s (Stmt KInstruction words l) s1 s2 ->
  opcode_stmt c s words t0 ops -> jump_form (upper t0) ops op t ->
  not_num gb_p s t 8 true -> no_select t -> no_ops t -> t <> [] -> 0 <= pc s -> short_texts c s2 ->
  link c dummy_linker s2 = (s3, Ok tt) ->
  exists a disp, address_of (labels s2) t a /\
    slice (zlen (assembled s)) 2 (assembled s3) = [op; disp] /\ is_byte disp /\
    (pc s + 2) + sign8 disp = a.
Proof.
  intros e fuel text s0 s words l s1 s2 s3 t0 ops op t c B SN H.
  exact (C44_jump_at e fuel s words l s1 s2 s3 t0 ops op t B (passes_sits _ _ _ _ _ _ _ _ (proj1 (lr_fits e)) (proj2 (lr_fits e)) B SN H)).
Qed.
Print Assumptions C44_jump.
(** A target out of reach, or not defined anywhere, does not link. *)
Lemma C44_too_far_at : forall e fuel s words l s1 s2 t0 ops op t,
  let c := lr35902 e in
  byte_files c -> sits c fuel s (Stmt KInstruction words l) s1 s2 ->
  opcode_stmt c s words t0 ops -> jump_form (upper t0) ops op t ->
  not_num gb_p s t 8 true -> no_select t -> no_ops t -> t <> [] -> 0 <= pc s -> short_texts c s2 ->
  (forall a, address_of (labels s2) t a -> ~ -128 <= a - (pc s + 2) < 128) ->
  snd (link c dummy_linker s2) <> Ok tt.
Proof.
  intros e fuel s words l s1 s2 t0 ops op t c B H OS J NN NS NO NE PC NT FAR LK.
  destruct (link c dummy_linker s2) as [s3 r] eqn:E. cbn [snd] in LK. subst r.
  destruct (jump_linked e fuel s words l s1 s2 s3 t0 ops op t B H OS J NN PC NT E) as (v & V & RG & SL).
  destruct (plain_relative _ _ _ _ _ NS NO NE V) as (a & A & ->). exact (FAR a A RG).
Qed.
Theorem C44_too_far : forall e fuel text s0 s words l s1 s2 t0 ops op t,
  let c := lr35902 e in
  byte_files c -> sane s0 ->
  passes_through c fuel text s0 s (Stmt KInstruction words l) s1 s2 ->
  opcode_stmt c s words t0 ops -> jump_form (upper t0) ops op t ->
  not_num gb_p s t 8 true -> no_select t -> no_ops t -> t <> [] -> 0 <= pc s -> short_texts c s2 ->
  (forall a, address_of (labels s2) t a -> ~ -128 <= a - (pc s + 2) < 128) ->
  snd (link c dummy_linker s2) <> Ok tt.
Proof.
  intros e fuel text s0 s words l s1 s2 t0 ops op t c B SN H.
  exact (C44_too_far_at e fuel s words l s1 s2 t0 ops op t B (passes_sits _ _ _ _ _ _ _ _ (proj1 (lr_fits e)) (proj2 (lr_fits e)) B SN H)).
Qed.
Print Assumptions C44_too_far.

(** LD HL,SP+n and LD HL,SP-n. *)
Theorem C44_stack : forall e s words t0 a x (minus : bool) fuel l s',
  let arg := (if minus then #"-" ++ x else x) in
  opcode_stmt (lr35902 e) s words t0 [a; (if minus then #"SP-" else #"SP+") ++ x] -> 0 <= pc s ->
  upper t0 = #"LD" -> upper a = #"HL" ->
  exec (lr35902 e) fuel [Stmt KInstruction words l] s = (s', Ok tt) <->
  exists b ds, stored gb_p s 1 Disp arg b ds /\ emitted (referring s ds) (0xF8 :: b) s'.
Proof.
  intros e s words t0 a x minus fuel l s' arg OS PC U _. rewrite (exec_opcode _ _ _ _ _ _ _ OS).
  change (op_key (lr35902 e) t0) with (upper t0). rewrite U.
  assert (D : dget str_eqb (c_instructions (lr35902 e)) #"LD" = Some (OFun (lr_ld lr_ld_args))) by (rewrite lr_instructions; reflexivity).
  rewrite (fun_result _ _ _ _ _ _ D). generalize lr_ld_args. intros kw.
  assert (R : lr_ld kw (t0 :: [a; (if minus then #"SP-" else #"SP+") ++ x]) s =
              (let! value := lr_operand R8 arg in let! b := lift (pack_byte [Some 0xF8]) in ret (Some (b ++ value))) s).
  { destruct minus; reflexivity. }
  rewrite R. unfold bind. pose proof (operand_result R8 arg s) as OR.
  destruct (lr_operand R8 arg s) as [s2 [bo|er]]; cbn [fst snd].
  - unfold lift, ret. rewrite MosFacts.pack_byte1 by lia. cbn [fst snd]. split.
    + intros (b & E & EM). injection E as <-. destruct (proj1 (OR s2 bo PC) eq_refl) as (ds & S & ->). exists bo, ds. auto.
    + intros (b & ds & S & EM).
      assert (E : (s2, Ok bo) = (referring s ds, Ok b)) by (apply (OR _ _ PC); exists ds; auto).
      injection E as -> ->. exists (0xF8 :: b). auto.
  - split; [intros (b & E & _); discriminate|]. intros (b & ds & S & EM).
    assert (E : (s2, Err er) = (referring s ds, Ok b)) by (apply (OR _ _ PC); exists ds; auto). discriminate.
Qed.
Print Assumptions C44_stack.

(** The manual has every opcode exactly once: all but the prefix 0xCB, LD HL,SP+n and the
    eleven unused ones, and all 256 that follow the prefix. *)
Example C44_matrix :
  forallb (fun k => Nat.eqb (length (filter (fun '(_, (b, _)) => hd (-1) b =? k) official))
     (if existsb (Z.eqb k) [0xD3; 0xDB; 0xDD; 0xE3; 0xE4; 0xEB; 0xEC; 0xED; 0xF4; 0xFC; 0xFD; 0xF8] then 0
      else if k =? 0xCB then 256 else if (k =? 0xE0) || (k =? 0xE2) || (k =? 0xF0) then 2 else 1)) (map Z.of_nat (seq 0 256)) = true /\
  forallb (fun k => Nat.eqb (length (filter (fun '(_, (b, _)) => (hd (-1) b =? 0xCB) && (nth 1 b (-1) =? k)) official)) 1)
     (map Z.of_nat (seq 0 256)) = true.
Proof. split; vm_compute; reflexivity. Qed.

Definition gb := lr35902 demo_env.
Definition gb_run (l : list string) : st * res unit := assemble gb 5 (lines l) (init_st []).
Definition gb_bytes (l : list string) : bytes := assembled (fst (gb_run l)).
Definition c44_text : str := lines [".org $150"; "loop: dec b"; "jr nz,loop"; "jp loop"; "ld hl, SP-2"]%string.
Example C44_example :
  let s := fst (exec gb 5 (firstn 3 (stmts_of c44_text)) (init_st [])) in
  let x := Stmt KInstruction [#"jr"; #"nz"; #"loop"] 3 in
  let s2 := fst (assemble gb 5 c44_text (init_st [])) in
  passes_through gb 5 c44_text (init_st []) s x (fst (exec gb 5 [x] s)) s2 /\
  opcode_stmt gb s [#"jr"; #"nz"; #"loop"] #"jr" [#"nz"; #"loop"] /\ jump_form #"JR" [#"nz"; #"loop"] 0x20 #"loop" /\
  ~ odd #"JR" [#"nz"; #"loop"] /\ encodes s #"JR" [#"nz"; #"loop"] [0x20; 0] [ref #"loop" 1 8 1 0x153] /\
  not_num gb_p s #"loop" 8 true /\ no_text s2 /\ pc s = 0x151 /\
  (exists s3, link gb dummy_linker s2 = (s3, Ok tt) /\ assembled s3 = [0x05; 0x20; 0xFD; 0xC3; 0x50; 0x01; 0xF8; 0xFE]) /\
  address_of (labels s2) #"loop" 0x150 /\ stored gb_p s 1 Disp #"-2" [0xFE] [].
Proof.
  cbv zeta. split; [reached 3%nat|]. split; [apply plain_stmt; vm_compute; reflexivity|].
  assert (JF : jump_form #"JR" [#"nz"; #"loop"] 0x20 #"loop").
  { exists [W #"NZ"]. split; [|split; [|reflexivity]].
    - apply in_or_app. left. apply in_or_app. left. do 4 right. left. reflexivity.
    - apply (os_cons (W #"NZ") [V Disp] #"nz" [#"loop"] [] [(Disp, #"loop")]); [constructor; reflexivity|].
      apply (os_cons (V Disp) [] #"loop" [] [(Disp, #"loop")] []); [|constructor]. constructor. intros I. apply str_in_In in I. discriminate. }
  split; [exact JF|]. split; [apply jr_not_odd|].
  split.
  { destruct JF as (cc & I & OP & _). exists [0x20], (cc ++ [V Disp]), [(Disp, #"loop")]. split; [exact I|]. split; [exact OP|].
    apply (lo_one gb_p _ [0x20] [] Disp #"loop" [0]). apply st_disp_name. vm_compute. reflexivity. }
  split; [vm_compute; reflexivity|]. split; [untexted|]. split; [vm_compute; reflexivity|].
  split; [linked|]. split; [eexists; split; vm_compute; reflexivity|].
  apply (st_disp gb_p _ 1 #"-2" (-2)). vm_compute. reflexivity.
Qed.

(** ** Findings *)

Lemma one_upper : forall (t : str) x, upper t = [x] -> t = [x] \/ t = [lower_chr x].
Proof.
  intros [|y [|z t]] x H; try discriminate. injection H as <-.
  destruct y as [[] [] [] [] [] [] [] []]; (left; reflexivity) || (right; reflexivity).
Qed.
(** Stores of A to the addresses 0, $, + and F become the store to the port in C. *)
Theorem C44_store_refuted : forall e words s t0 o t c a,
  opcode_stmt (lr35902 e) s words t0 [o; t; c; a] -> upper t0 = #"LD" -> (o = #"(" /\ c = #")" \/ o = #"[" /\ c = #"]") ->
  In (upper t) odd_words -> upper a = #"A" -> assembles (lr35902 e) s words [0xE2] [].
Proof.
  intros e words s t0 o t c a OS U B I A fuel l. rewrite (exec_opcode _ _ _ _ _ fuel l OS).
  change (op_key (lr35902 e) t0) with (upper t0). rewrite U.
  assert (D : dget str_eqb (c_instructions (lr35902 e)) #"LD" = Some (OFun (lr_ld lr_ld_args))) by (rewrite lr_instructions; reflexivity).
  rewrite (opcode_fun _ _ _ _ _ D).
  assert (R : lr_ld lr_ld_args [t0; o; t; c; a] s = (s, Ok (Some [0xE2]))).
  { apply one_upper in A. unfold odd_words in I. cbn [In] in I.
    destruct A as [-> | ->]; destruct I as [I|[I|[I|[I|[]]]]]; symmetry in I; apply one_upper in I; destruct I as [-> | ->];
      destruct B as [[-> ->]|[-> ->]]; vm_compute; reflexivity. }
  rewrite R. eexists. split; reflexivity.
Qed.
Print Assumptions C44_store_refuted.

(** The documented load from the port in C is not known. *)
Theorem C44_load_refuted :
  gb_bytes ["ld a,($FF00+C)"]%string <> [0xF2] /\ gb_bytes ["ld a,(c)"]%string = [0xF2] /\
  gb_bytes ["ld ($FF00+C),a"]%string = [0xE2].
Proof. split; [vm_compute; discriminate|split; vm_compute; reflexivity]. Qed.
(** Shifts and bit operations accept (H) and (L) for (HL). *)
Theorem C44_shift_refuted :
  gb_bytes ["swap (h)"; "bit 0,(l)"]%string = [0xCB; 0x36; 0xCB; 0x46] /\
  snd (gb_run ["swap (h)"; "bit 0,(l)"]%string) = Ok tt.
Proof. split; vm_compute; reflexivity. Qed.
(** BRA, which the processor does not have, is RRA; LD with SP+n accepts any other words. *)
Theorem C44_extra_refuted :
  gb_bytes ["bra"]%string = [0x1F] /\ gb_bytes ["ld bc, SP+4 and more"]%string = [0xF8; 4] /\
  snd (gb_run ["ld bc, SP+4 and more"]%string) = Ok tt.
Proof. split; [|split]; vm_compute; reflexivity. Qed.

(** The word SP of SP-n must be in capitals, unlike every other register. *)
Theorem C44_case_refuted :
  gb_bytes ["ld hl, SP-2"]%string = [0xF8; 0xFE] /\ gb_bytes ["ld hl, sp-2"]%string = [0x21; 0; 0] /\
  snd (link gb dummy_linker (fst (gb_run ["ld hl, sp-2"]%string))) <> Ok tt.
Proof. split; [vm_compute; reflexivity|]. split; [vm_compute; reflexivity|vm_compute; discriminate]. Qed.

(** ** C39 *)

Theorem C39_lr35902 : forall e, fits (lr35902 e) /\ handlers neat (lr35902 e).
Proof. exact lr_fits. Qed.
Print Assumptions C39_lr35902.
Print Assumptions C44_load_refuted.
Print Assumptions C44_shift_refuted.
Print Assumptions C44_extra_refuted.
Print Assumptions C44_case_refuted.
