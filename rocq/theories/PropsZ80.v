(** Property C56: the Z80. *)
From Coq Require Import Lia.
From Verif Require Import Reach.
From Verif Require Import Py PyFacts Utils Tokenizer State Assembler SpecUtils SpecParse SpecSubst SpecExec SpecLink
  UtilsFacts SpecCpu SpecPlace SpecByte Instr Z80 CpuFacts WordFacts LrFacts LrEnc ByteLink LabelMono Demo
  PropsPlace PropsMosLink PropsFit FitFacts.
From Verif Require Import SpecZ80 Z80Facts Z80Enc FitZ80.
Local Open Scope Z_scope.

(** An instruction that is not one of the odd notations is accepted exactly if the manual
    has a form for it, and then gives the bytes of that form with its operand. *)
Theorem C56_encoding : forall e s words t0 ops fuel l s', opcode_stmt (z80 e) s words t0 ops -> 0 <= pc s -> ~ odd (upper t0) ops ->
  exec (z80 e) fuel [Stmt KInstruction words l] s = (s', Ok tt) <->
  exists b ds, encodes s (upper t0) ops b ds /\ emitted (referring s ds) b s'.
Proof. exact z80_encoding. Qed.
Print Assumptions C56_encoding.

(** The manual is unambiguous. *)
Lemma one_form : forall m ops, ~ odd m ops ->
  forall w1 w2, In w1 (spec_sel (forms_of m) ops) -> In w2 (spec_sel (forms_of m) ops) -> w1 = w2.
Proof. intros m ops O w1 w2 I1 I2. apply (compare m ops O) in I1, I2. congruence. Qed.
Theorem C56_deterministic : forall s m ops b1 ds1 b2 ds2, ~ odd m ops ->
  encodes s m ops b1 ds1 -> encodes s m ops b2 ds2 -> b1 = b2 /\ ds1 = ds2.
Proof.
  intros s m ops b1 ds1 b2 ds2 O E1 E2. apply encodes_iff in E1, E2.
  destruct E1 as (p1 & f1 & l1 & I1 & L1), E2 as (p2 & f2 & l2 & I2 & L2).
  pose proof (one_form m ops O _ _ I1 I2) as X. injection X as -> -> ->. eapply laid_out_det; eauto.
Qed.
Print Assumptions C56_deterministic.

(** In the linked image the instruction consists of the bytes of its form, numbers by their
    value, names by their address or distance. *)
Lemma C56_linked_at : forall e fuel s words l s1 s2 s3 t0 ops pre suf ks vs,
  let c := z80 e in
  byte_files c -> sits c fuel s (Stmt KInstruction words l) s1 s2 ->
  opcode_stmt c s words t0 ops -> ~ odd (upper t0) ops ->
  In (upper t0, (pre, suf, ks)) manual -> operands ks ops vs -> 0 <= pc s -> short_texts c s2 ->
  link c dummy_linker s2 = (s3, Ok tt) ->
  exists b, final_layout z_p s s2 pre suf vs b /\ slice (zlen (assembled s)) (zlen b) (assembled s3) = b.
Proof.
  intros e fuel s words l s1 s2 s3 t0 ops pre suf ks vs c B H OS O I OP PC NT LK.
  pose proof H as H'. destruct H' as (X & _).
  apply (C56_encoding _ _ _ _ _ _ _ _ OS PC O) in X. destruct X as (b & ds & EN & EM).
  apply encodes_iff in EN. destruct EN as (pre' & suf' & l' & J & LO).
  apply (operands_iff ks [] _ _ (manual_ok _ _ _ _ I)) in OP. destruct OP as (l'' & K & ->). cbn [app length] in *.
  assert (J2 : In (pre, suf, l'') (spec_sel (forms_of (upper t0)) ops)).
  { unfold spec_sel. rewrite in_flat_map. exists (pre, suf, ks). split; [apply forms_in; exact I|].
    cbv beta iota. rewrite K. left. reflexivity. }
  pose proof (one_form _ ops O _ _ J J2) as X. injection X as -> -> ->.
  destruct (z80_fits e) as [F N].
  exact (laid_linked c fuel s _ s1 s2 s3 b ds F B H EM NT LK eq_refl pre suf (picked ops l'') LO PC).
Qed.
Theorem C56_linked : forall e fuel text s0 s words l s1 s2 s3 t0 ops pre suf ks vs,
  let c := z80 e in
  byte_files c -> sane s0 ->
  passes_through c fuel text s0 s (Stmt KInstruction words l) s1 s2 ->
  opcode_stmt c s words t0 ops -> ~ odd (upper t0) ops ->
  In (upper t0, (pre, suf, ks)) manual -> operands ks ops vs -> 0 <= pc s -> short_texts c s2 ->
  link c dummy_linker s2 = (s3, Ok tt) ->
  exists b, final_layout z_p s s2 pre suf vs b /\ slice (zlen (assembled s)) (zlen b) (assembled s3) = b.
Proof.
  intros e fuel text s0 s words l s1 s2 s3 t0 ops pre suf ks vs c B SN H.
  exact (C56_linked_at e fuel s words l s1 s2 s3 t0 ops pre suf ks vs B (passes_sits _ _ _ _ _ _ _ _ (proj1 (z80_fits e)) (proj2 (z80_fits e)) B SN H)).
Qed.
Print Assumptions C56_linked.

(** A relative jump to a label that links lands on the label. *)
Definition jump_form (m : str) (ops : list str) (op : Z) (t : str) : Prop :=
  exists cc, In (m, ([op], [], cc ++ [V Disp])) manual /\ operands (cc ++ [V Disp]) ops [(Disp, t)] /\ ~ odd m ops.
Lemma jump_linked : forall e fuel s words l s1 s2 s3 t0 ops op t,
  let c := z80 e in
  byte_files c -> sits c fuel s (Stmt KInstruction words l) s1 s2 ->
  opcode_stmt c s words t0 ops -> jump_form (upper t0) ops op t ->
  not_num z_p s t 8 true -> 0 <= pc s -> short_texts c s2 ->
  link c dummy_linker s2 = (s3, Ok tt) ->
  exists v, label_relative z_p (labels s2) t (pc s + 2) = Ok (Some v) /\ -128 <= v < 128 /\
    slice (zlen (assembled s)) 2 (assembled s3) = [op; v mod 256].
Proof.
  intros e fuel s words l s1 s2 s3 t0 ops op t c B H OS (cc & I & OP & O) NN PC NT LK.
  destruct (C56_linked_at e fuel s words l s1 s2 s3 t0 ops [op] [] _ _ B H OS O I OP PC NT LK) as (b & FL & SL).
  inversion FL as [|f t' b' SE]; subst. inversion SE; subst.
  - match goal with X : stored _ _ _ _ _ _ _ |- _ => inversion X; subst end. unfold num, not_num in *. congruence.
  - exists v. change (zlen [op]) with 1 in *. replace (pc s + 1 + 1) with (pc s + 2) in * by ring.
    split; [assumption|]. split; [assumption|]. exact SL.
Qed.
Lemma C56_jump_at : forall e fuel s words l s1 s2 s3 t0 ops op t,
  let c := z80 e in
  byte_files c -> sits c fuel s (Stmt KInstruction words l) s1 s2 ->
  opcode_stmt c s words t0 ops -> jump_form (upper t0) ops op t ->
  not_num z_p s t 8 true -> no_select t -> no_ops t -> t <> [] -> 0 <= pc s -> short_texts c s2 ->
  link c dummy_linker s2 = (s3, Ok tt) ->
  exists a disp, address_of (labels s2) t a /\
    slice (zlen (assembled s)) 2 (assembled s3) = [op; disp] /\ is_byte disp /\
    (pc s + 2) + sign8 disp = a.
Proof.
  intros e fuel s words l s1 s2 s3 t0 ops op t c B H OS J NN NS NO NE PC NT LK.
  destruct (jump_linked e fuel s words l s1 s2 s3 t0 ops op t B H OS J NN PC NT LK) as (v & V & RG & SL).
  destruct (plain_relative _ _ _ _ _ NS NO NE V) as (a & A & ->).
  exists a, ((a - (pc s + 2)) mod 256). split; [exact A|]. split; [exact SL|].
  split; [unfold is_byte; apply Z.mod_pos_bound; lia|]. rewrite sign8_mod by exact RG. lia.
Qed.
Theorem C56_jump : forall e fuel text s0 s words l s1 s2 s3 t0 ops op t,
  let c := z80 e in
  byte_files c -> sane s0 ->
  passes_through c fuel text s0 s (Stmt KInstruction words l) s1 s2 ->
  opcode_stmt c s words t0 ops -> jump_form (upper t0) ops op t ->
  not_num z_p s t 8 true -> no_select t -> no_ops t -> t <> [] -> 0 <= pc s -> short_texts c s2 ->
  link c dummy_linker s2 = (s3, Ok tt) ->
  exists a disp, address_of (labels s2) t a /\
    slice (zlen (assembled s)) 2 (assembled s3) = [op; disp] /\ is_byte disp /\
    (pc s + 2) + sign8 disp = a.
Proof.
  intros e fuel text s0 s words l s1 s2 s3 t0 ops op t c B SN H.
  exact (C56_jump_at e fuel s words l s1 s2 s3 t0 ops op t B (passes_sits _ _ _ _ _ _ _ _ (proj1 (z80_fits e)) (proj2 (z80_fits e)) B SN H)).
Qed.
Print Assumptions C56_jump.
(** A target out of reach, or not defined anywhere, does not link. *)
Lemma C56_too_far_at : forall e fuel s words l s1 s2 t0 ops op t,
  let c := z80 e in
  byte_files c -> sits c fuel s (Stmt KInstruction words l) s1 s2 ->
  opcode_stmt c s words t0 ops -> jump_form (upper t0) ops op t ->
  not_num z_p s t 8 true -> no_select t -> no_ops t -> t <> [] -> 0 <= pc s -> short_texts c s2 ->
  (forall a, address_of (labels s2) t a -> ~ -128 <= a - (pc s + 2) < 128) ->
  snd (link c dummy_linker s2) <> Ok tt.
Proof.
  intros e fuel s words l s1 s2 t0 ops op t c B H OS J NN NS NO NE PC NT FAR LK.
  destruct (link c dummy_linker s2) as [s3 r] eqn:E. cbn [snd] in LK. subst r.
  destruct (jump_linked e fuel s words l s1 s2 s3 t0 ops op t B H OS J NN PC NT E) as (v & V & RG & SL).
  destruct (plain_relative _ _ _ _ _ NS NO NE V) as (a & A & ->). exact (FAR a A RG).
Qed.
Theorem C56_too_far : forall e fuel text s0 s words l s1 s2 t0 ops op t,
  let c := z80 e in
  byte_files c -> sane s0 ->
  passes_through c fuel text s0 s (Stmt KInstruction words l) s1 s2 ->
  opcode_stmt c s words t0 ops -> jump_form (upper t0) ops op t ->
  not_num z_p s t 8 true -> no_select t -> no_ops t -> t <> [] -> 0 <= pc s -> short_texts c s2 ->
  (forall a, address_of (labels s2) t a -> ~ -128 <= a - (pc s + 2) < 128) ->
  snd (link c dummy_linker s2) <> Ok tt.
Proof.
  intros e fuel text s0 s words l s1 s2 t0 ops op t c B SN H.
  exact (C56_too_far_at e fuel s words l s1 s2 t0 ops op t B (passes_sits _ _ _ _ _ _ _ _ (proj1 (z80_fits e)) (proj2 (z80_fits e)) B SN H)).
Qed.
Print Assumptions C56_too_far.

(** The manual has every opcode of the four pages: each of the main page once but the
    prefixes, each after CB once, and after DD CB and FD CB those with an operand in memory. *)
Definition count (f : form -> bool) (l : list form) : nat := length (filter f l).
Example C56_matrix :
  forallb (fun k => Nat.eqb (count (fun '(_, (b, _, _)) => hd (-1) b =? k) main_page)
     (if existsb (Z.eqb k) [0xCB; 0xDD; 0xED; 0xFD] then 0 else 1)) (map Z.of_nat (seq 0 256)) = true /\
  forallb (fun k => Nat.eqb (count (fun '(_, (b, _, _)) => hd (-1) b =? k) bit_page) 1) (map Z.of_nat (seq 0 256)) = true /\
  forallb (fun k => Nat.eqb (count (fun '(_, (b, suf, _)) => list_eqb Z.eqb b [0xDD; 0xCB] && (hd (-1) suf =? k)) manual)
     (if Z.modulo k 8 =? 6 then 1 else 0)) (map Z.of_nat (seq 0 256)) = true /\
  forallb (fun k => Nat.leb (count (fun '(_, (b, _, _)) => hd (-1) b =? k) extended_page) 1) (map Z.of_nat (seq 0 256)) = true.
Proof. split; [|split; [|split]]; vm_compute; reflexivity. Qed.

Definition kind_eqb (a b : kind) : bool :=
  match a, b with
  | W v, W w => str_eqb v w | V f, V g => field_eqb f g | Addr, Addr => true | X r, X q => str_eqb r q | _, _ => false
  end.
Definition form_eqb (a b : form) : bool :=
  let '(m, (p, s, k)) := a in let '(n, (q, t, l)) := b in
  str_eqb m n && list_eqb Z.eqb p q && list_eqb Z.eqb s t && list_eqb kind_eqb k l.
Lemma in_manual : forall f, existsb (form_eqb f) manual = true -> In f manual.
Proof.
  intros [m [[p s] k]] H. rewrite existsb_exists in H. destruct H as ([n [[q t] l]] & I & H). cbn [form_eqb] in H.
  apply andb_prop in H. destruct H as [H H4]. apply andb_prop in H. destruct H as [H H3]. apply andb_prop in H. destruct H as [H1 H2].
  apply str_eqb_eq in H1. apply list_eqb_eq in H2; [|intros x y E; apply Z.eqb_eq; exact E].
  apply list_eqb_eq in H3; [|intros x y E; apply Z.eqb_eq; exact E]. apply list_eqb_eq in H4; [subst; exact I|].
  intros [v|f| |r] [w|g| |u] E; try discriminate; cbn [kind_eqb] in E; try (apply str_eqb_eq in E; congruence); [|reflexivity].
  destruct f, g; try discriminate; reflexivity.
Qed.

Definition zz := z80 demo_env.
Definition z_run (l : list string) : st * res unit := assemble zz 5 (lines l) (init_st []).
Definition z_bytes (l : list string) : bytes := assembled (fst (z_run l)).
Definition c56_text : str := lines [".org $150"; "loop: dec b"; "jr nz,loop"; "rl (iy-2)"; "jp loop"; "ld ix,loop"]%string.
Example C56_example :
  let s := fst (exec zz 5 (firstn 3 (stmts_of c56_text)) (init_st [])) in
  let x := Stmt KInstruction [#"jr"; #"nz"; #"loop"] 3 in
  let s2 := fst (assemble zz 5 c56_text (init_st [])) in
  passes_through zz 5 c56_text (init_st []) s x (fst (exec zz 5 [x] s)) s2 /\
  opcode_stmt zz s [#"jr"; #"nz"; #"loop"] #"jr" [#"nz"; #"loop"] /\ jump_form #"JR" [#"nz"; #"loop"] 0x20 #"loop" /\
  encodes s #"JR" [#"nz"; #"loop"] [0x20; 0] [ref #"loop" 1 8 1 0x153] /\
  encodes s #"RL" [#"("; #"iy-2"; #")"] [0xFD; 0xCB; 0xFE; 0x16] [] /\ ~ odd #"RL" [#"("; #"iy-2"; #")"] /\
  not_num z_p s #"loop" 8 true /\ no_text s2 /\ pc s = 0x151 /\
  (exists s3, link zz dummy_linker s2 = (s3, Ok tt) /\
    assembled s3 = [0x05; 0x20; 0xFD; 0xFD; 0xCB; 0xFE; 0x16; 0xC3; 0x50; 0x01; 0xDD; 0x21; 0x50; 0x01]) /\
  address_of (labels s2) #"loop" 0x150.
Proof.
  cbv zeta. split; [reached 3%nat|]. split; [apply plain_stmt; vm_compute; reflexivity|].
  assert (OJ : ~ odd #"JR" [#"nz"; #"loop"]).
  { intros H. inversion H as [m ops t I B| | |]; subst. cbn [In] in I. destruct I as [<-|[<-|[]]]; cbn in B; intuition discriminate. }
  assert (OR : ~ odd #"RL" [#"("; #"iy-2"; #")"]).
  { intros H. inversion H as [m ops t I B| | |]; subst. cbn [In] in I. destruct I as [<-|[<-|[<-|[]]]]; cbn in B; intuition discriminate. }
  assert (JF : jump_form #"JR" [#"nz"; #"loop"] 0x20 #"loop").
  { exists [W #"NZ"]. split; [|split; [|exact OJ]].
    - apply in_manual. vm_compute. reflexivity.
    - apply (os_cons (W #"NZ") [V Disp] #"nz" [#"loop"] [] [(Disp, #"loop")]); [constructor; reflexivity|].
      apply (os_cons (V Disp) [] #"loop" [] [(Disp, #"loop")] []); [|constructor]. constructor. intros I. apply str_in_In in I. discriminate. }
  split; [exact JF|].
  split.
  { destruct JF as (cc & I & OP & _). exists [0x20], [], (cc ++ [V Disp]), [(Disp, #"loop")]. split; [exact I|]. split; [exact OP|].
    apply (lo_one z_p _ [0x20] [] Disp #"loop" [0]). apply st_disp_name. vm_compute. reflexivity. }
  split.
  { exists [0xFD; 0xCB], [0x16], [W #"("; X #"IY"; W #")"], [(Index, #"-2")]. split; [apply in_manual; vm_compute; reflexivity|]. split.
    - apply (os_cons (W #"(") _ #"(" _ [] [(Index, #"-2")]); [constructor; reflexivity|].
      apply (os_cons (X #"IY") _ #"iy-2" _ [(Index, #"-2")] []); [constructor; apply i_minus; reflexivity|].
      apply (os_cons (W #")") [] #")" [] [] []); constructor. reflexivity.
    - apply (lo_one z_p _ [0xFD; 0xCB] [0x16] Index #"-2" [0xFE]). apply (st_index z_p _ _ #"-2" (-2)). vm_compute. reflexivity. }
  split; [exact OR|].
  split; [vm_compute; reflexivity|]. split; [untexted|]. split; [vm_compute; reflexivity|].
  split; [linked|]. eexists; split; vm_compute; reflexivity.
Qed.

(** ** Findings *)

(** A load or a store of A at (IX+d) becomes one at a fixed address, with a reference to a
    label named IX+d. *)
Theorem C56_index_refuted :
  z_bytes ["ld a,(ix+5)"]%string = [0x3A; 0; 0] /\ z_bytes ["ld (ix+5),a"]%string = [0x32; 0; 0] /\
  z_bytes ["ld b,(ix+5)"]%string = [0xDD; 0x46; 5] /\
  snd (link zz dummy_linker (fst (z_run ["ld a,(ix+5)"]%string))) <> Ok tt.
Proof. split; [|split; [|split]]; [vm_compute; reflexivity..|vm_compute; discriminate]. Qed.
(** LD (IX+d),n loses the displacement. *)
Theorem C56_immediate_refuted : snd (z_run ["ld (ix+5),7"]%string) = Ok tt /\ z_bytes ["ld (ix+5),7"]%string = [0xDD; 0x36; 7].
Proof. split; vm_compute; reflexivity. Qed.
(** BIT n,(IX+d) has the code of an undocumented twin. *)
Theorem C56_bit_refuted : z_bytes ["bit 1,(ix+5)"]%string = [0xDD; 0xCB; 5; 0x48].
Proof. vm_compute. reflexivity. Qed.
(** EX AF,AF' opens a string: it and the rest of the text vanish without an error. *)
Theorem C56_exchange_refuted :
  snd (z_run ["nop"; "ex af,af'"; "halt"]%string) = Ok tt /\ z_bytes ["nop"; "ex af,af'"; "halt"]%string = [0].
Proof. split; vm_compute; reflexivity. Qed.
(** The restarts take only addresses in the form nnH. *)
Theorem C56_restart_refuted :
  snd (z_run ["rst $08"]%string) <> Ok tt /\ snd (z_run ["rst 8"]%string) <> Ok tt /\ z_bytes ["rst 8h"]%string = [0xCF].
Proof. split; [|split]; [vm_compute; discriminate..|vm_compute; reflexivity]. Qed.

(** ** C39 *)

Theorem C39_z80 : forall e, fits (z80 e) /\ handlers neat (z80 e).
Proof. exact z80_fits. Qed.
Print Assumptions C39_z80.
Print Assumptions C56_index_refuted.
Print Assumptions C56_immediate_refuted.
Print Assumptions C56_bit_refuted.
Print Assumptions C56_exchange_refuted.
Print Assumptions C56_restart_refuted.
