(** Properties C37 and C38: 6502 branches and addresses in the linked image. *)
From Coq Require Import Lia.
From Verif Require Import Reach.
From Verif Require Import Py PyFacts Utils Tokenizer State Assembler SpecUtils SpecParse SpecExec SpecLink
  UtilsFacts SpecCpu SpecMos SpecPlace Mos6502 CpuFacts MosFacts FitMos LabelMono Demo PropsMos PropsPlace.
Local Open Scope Z_scope.

Lemma mos_refs : forall s mn o b ds, encodes s mn o b ds -> Forall sound_ref ds /\ placed (zlen b) ds.
Proof.
  intros s mn o b ds H. destruct H; (split; [|split]); repeat constructor; cbn; try lia; try discriminate.
Qed.

(** Branches have no other mode. *)
Lemma relative_only : forall mn op m op', op_of mn Relative op -> op_of mn m op' -> m = Relative.
Proof.
  intros mn op m op' H1 H2. unfold op_of in *.
  assert (X : forallb (fun '(_, n1, m1) => match m1 with Relative =>
     forallb (fun '(_, n2, m2) => match m2 with Relative => true | _ => negb (str_eqb n1 n2) end) manual
     | _ => true end) manual = true) by (vm_compute; reflexivity).
  rewrite forallb_forall in X. apply X in H1. rewrite forallb_forall in H1. apply H1 in H2.
  destruct m; auto; rewrite (proj2 (str_eqb_eq _ _) eq_refl) in H2; discriminate.
Qed.
Lemma relative_target : forall s mn op o b ds, op_of mn Relative op -> encodes s mn o b ds -> exists t, o = Target t.
Proof.
  intros s mn op o b ds R H. destruct H; eauto;
    match goal with X : op_of mn ?m _ |- _ => pose proof (relative_only _ _ _ _ R X); try discriminate; subst m end;
    destruct o; cbn [addressed] in *; discriminate.
Qed.
Lemma one_op : forall mn m a b, op_of mn m a -> op_of mn m b -> a = b.
Proof. intros mn m a b A B. apply code_op_iff in A, B. rewrite A in B. injection B. auto. Qed.

(** The signed displacement of a byte. *)
Definition sign8 (x : Z) : Z := if x <? 128 then x else x - 256.
Lemma sign8_mod : forall v, -128 <= v < 128 -> sign8 (v mod 256) = v.
Proof.
  intros v R. unfold sign8. destruct (Z.neg_nonneg_cases v).
  - rewrite <- (Z.mod_add _ 1) by lia. rewrite Z.mod_small by lia. destruct (Z.ltb_spec (v + 1 * 256) 128); lia.
  - rewrite Z.mod_small by lia. destruct (Z.ltb_spec v 128); lia.
Qed.

(** ** C37 *)

Section Branch.
  Context (e : env) (fuel : nat) (s : st) (words : list str) (l : Z) (s1 s2 : st)
    (t0 t : str) (rest : list str) (op : Z).
  Let c := mos6502 e.

  Lemma branch_linked : forall s3, byte_files c ->
    sits c fuel s (Stmt KInstruction words l) s1 s2 ->
    opcode_stmt c s words t0 (t :: rest) -> op_of (upper t0) Relative op ->
    not_num mos_p s t 8 true -> 0 <= pc s -> short_texts c s2 ->
    link c dummy_linker s2 = (s3, Ok tt) ->
    exists v, label_relative mos_p (labels s2) t (pc s + 2) = Ok (Some v) /\ -128 <= v < 128 /\
      slice (zlen (assembled s)) 2 (assembled s3) = [op; v mod 256].
  Proof.
    intros s3 B H OS R NN PC NT LK. pose proof H as H'. destruct H' as (X & _).
    apply (C36_encoding _ _ _ _ _ _ _ _ OS) in X. destruct X as (o & b & ds & W & EN & EM).
    destruct (mos_refs _ _ _ _ _ EN) as [SR PL].
    destruct (relative_target _ _ _ _ _ _ R EN) as (t' & ->).
    assert (t' = t) as -> by (inversion W; auto).
    assert (G : negb (pc s + 2 =? 0) = true) by (apply negb_true_iff, Z.eqb_neq; lia).
    inversion EN; subst; try (cbn [addressed] in *; discriminate).
    - rewrite G in *. unfold num, not_num in *. congruence.
    - match goal with Q : op_of _ Relative ?x |- _ => assert (x = op) as -> by (eapply one_op; eauto) end.
      destruct (mos_fits e) as [F N].
      destruct (sits_one c fuel s _ s1 s2 s3 _ _ F B H EM SR PL NT LK [op] 1 [] _ eq_refl eq_refl eq_refl eq_refl)
        as (v & (a & u & T & _ & RG & EC) & SL).
      exists v. unfold in_range in RG. cbn [ref ld_relative ld_bits_size encoded ld_filter ld_bits] in RG, EC.
      cbv zeta in EC. cbn [ld_filter ld_bits ref] in EC. subst v.
      assert (pc s + 2 =? 0 = false) as Z0 by (apply Z.eqb_neq; lia). rewrite Z0 in RG.
      inversion T as [? Q _|? ? _ _ Q]; subst; cbn [ref ld_relative] in Q; [lia|].
      split; [exact Q|]. split; [lia|].
      unfold field_of in SL. cbn [mos6502 mk_cfg c_p big_endian] in SL.
      change (zlen [op; 0]) with 2 in SL. rewrite SL. unfold byte_of. cbn [seq map]. change (256 ^ Z.of_nat 0) with 1.
      rewrite Z.div_1_r. reflexivity.
  Qed.
End Branch.

(** If the program links, the branch is its opcode followed by the displacement that
    takes the processor, which adds it to the address of the next instruction, to the
    label. *)
Lemma C37_lands_at : forall e fuel s words l s1 s2 s3 t0 t rest op,
  let c := mos6502 e in
  byte_files c -> sits c fuel s (Stmt KInstruction words l) s1 s2 ->
  opcode_stmt c s words t0 (t :: rest) -> op_of (upper t0) Relative op ->
  not_num mos_p s t 8 true -> no_select t -> no_ops t -> t <> [] -> 0 <= pc s -> short_texts c s2 ->
  link c dummy_linker s2 = (s3, Ok tt) ->
  exists a disp, address_of (labels s2) t a /\
    slice (zlen (assembled s)) 2 (assembled s3) = [op; disp] /\ is_byte disp /\
    (pc s + 2) + sign8 disp = a.
Proof.
  intros e fuel s words l s1 s2 s3 t0 t rest op c B H OS R NN NS NO NE PC NT LK.
  destruct (branch_linked e fuel s words l s1 s2 t0 t rest op s3 B H OS R NN PC NT LK) as (v & V & RG & SL).
  destruct (plain_relative _ _ _ _ _ NS NO NE V) as (a & A & ->).
  exists a, ((a - (pc s + 2)) mod 256). split; [exact A|]. split; [exact SL|].
  split; [unfold is_byte; apply Z.mod_pos_bound; lia|].
  unfold sign8. destruct (Z.ltb_spec ((a - (pc s + 2)) mod 256) 128).
  - assert (Q : 0 <= a - (pc s + 2)).
    { destruct (Z.neg_nonneg_cases (a - (pc s + 2))) as [K|K]; [|lia].
      rewrite <- (Z.mod_add _ 1) in H0 by lia. rewrite Z.mod_small in H0; lia. }
    rewrite Z.mod_small; lia.
  - assert (Q : a - (pc s + 2) < 0).
    { destruct (Z.neg_nonneg_cases (a - (pc s + 2))) as [K|K]; [lia|].
      rewrite Z.mod_small in H0; lia. }
    rewrite <- (Z.mod_add _ 1) by lia. rewrite Z.mod_small; lia.
Qed.
Theorem C37_lands : forall e fuel text s0 s words l s1 s2 s3 t0 t rest op,
  let c := mos6502 e in
  byte_files c -> sane s0 ->
  passes_through c fuel text s0 s (Stmt KInstruction words l) s1 s2 ->
  opcode_stmt c s words t0 (t :: rest) -> op_of (upper t0) Relative op ->
  not_num mos_p s t 8 true -> no_select t -> no_ops t -> t <> [] -> 0 <= pc s -> short_texts c s2 ->
  link c dummy_linker s2 = (s3, Ok tt) ->
  exists a disp, address_of (labels s2) t a /\
    slice (zlen (assembled s)) 2 (assembled s3) = [op; disp] /\ is_byte disp /\
    (pc s + 2) + sign8 disp = a.
Proof.
  intros e fuel text s0 s words l s1 s2 s3 t0 t rest op c B SN H.
  exact (C37_lands_at e fuel s words l s1 s2 s3 t0 t rest op B (passes_sits _ _ _ _ _ _ _ _ (proj1 (mos_fits e)) (proj2 (mos_fits e)) B SN H)).
Qed.
Print Assumptions C37_lands.

(** A target that is too far away, or not defined anywhere, does not link. *)
Lemma C37_too_far_at : forall e fuel s words l s1 s2 t0 t rest op,
  let c := mos6502 e in
  byte_files c -> sits c fuel s (Stmt KInstruction words l) s1 s2 ->
  opcode_stmt c s words t0 (t :: rest) -> op_of (upper t0) Relative op ->
  not_num mos_p s t 8 true -> no_select t -> no_ops t -> t <> [] -> 0 <= pc s -> short_texts c s2 ->
  (forall a, address_of (labels s2) t a -> ~ -128 <= a - (pc s + 2) < 128) ->
  snd (link c dummy_linker s2) <> Ok tt.
Proof.
  intros e fuel s words l s1 s2 t0 t rest op c B H OS R NN NS NO NE PC NT FAR LK.
  destruct (link c dummy_linker s2) as [s3 r] eqn:E. cbn [snd] in LK. subst r.
  destruct (branch_linked e fuel s words l s1 s2 t0 t rest op s3 B H OS R NN PC NT E) as (v & V & RG & SL).
  destruct (plain_relative _ _ _ _ _ NS NO NE V) as (a & A & ->). exact (FAR a A RG).
Qed.
Theorem C37_too_far : forall e fuel text s0 s words l s1 s2 t0 t rest op,
  let c := mos6502 e in
  byte_files c -> sane s0 ->
  passes_through c fuel text s0 s (Stmt KInstruction words l) s1 s2 ->
  opcode_stmt c s words t0 (t :: rest) -> op_of (upper t0) Relative op ->
  not_num mos_p s t 8 true -> no_select t -> no_ops t -> t <> [] -> 0 <= pc s -> short_texts c s2 ->
  (forall a, address_of (labels s2) t a -> ~ -128 <= a - (pc s + 2) < 128) ->
  snd (link c dummy_linker s2) <> Ok tt.
Proof.
  intros e fuel text s0 s words l s1 s2 t0 t rest op c B SN H.
  exact (C37_too_far_at e fuel s words l s1 s2 t0 t rest op B (passes_sits _ _ _ _ _ _ _ _ (proj1 (mos_fits e)) (proj2 (mos_fits e)) B SN H)).
Qed.
Print Assumptions C37_too_far.

Definition c37_text : str := lines [".org $8000"; "back: nop"; "bne back"; "nop"]%string.
Definition c37_far : str := lines ["bne far"; ".fill 128"; "far: nop"]%string.
Definition mos := mos6502 demo_env.
Lemma mos_files : byte_files mos.
Proof.
  intros n b H. cbn [mos mos6502 mk_cfg c_env file_bytes demo_env] in H.
  repeat match type of H with (if ?x then _ else _) = _ => destruct x end; try discriminate; injection H as <-;
  repeat constructor; unfold is_byte; lia.
Qed.
Example C37_example :
  let s := fst (exec mos 5 (firstn 3 (stmts_of c37_text)) (init_st [])) in
  let x := Stmt KInstruction [#"bne"; #"back"] 3 in
  let s2 := fst (assemble mos 5 c37_text (init_st [])) in
  passes_through mos 5 c37_text (init_st []) s x (fst (exec mos 5 [x] s)) s2 /\
  opcode_stmt mos s [#"bne"; #"back"] #"bne" [#"back"] /\ op_of #"BNE" Relative 0xD0 /\
  not_num mos_p s #"back" 8 true /\ no_text s2 /\ pc s = 0x8001 /\
  (exists s3, link mos dummy_linker s2 = (s3, Ok tt) /\ assembled s3 = [0xEA; 0xD0; 0xFD; 0xEA]) /\
  address_of (labels s2) #"back" 0x8000 /\
  let far := fst (assemble mos 5 c37_far (init_st [])) in
  address_of (labels far) #"far" 130 /\
  snd (link mos dummy_linker far) = Err (AExc (NotInBitRange 128 8 (Some #"far"))).
Proof.
  cbv zeta. split; [reached 3%nat|]. split; [apply plain_stmt; vm_compute; reflexivity|].
  split; [apply code_op_iff; vm_compute; reflexivity|]. split; [vm_compute; reflexivity|].
  split; [vm_compute; repeat constructor|]. split; [vm_compute; reflexivity|].
  split; [eexists; split; vm_compute; reflexivity|].
  split; [eexists; split; vm_compute; reflexivity|].
  split; [eexists; split; vm_compute; reflexivity|]. vm_compute. reflexivity.
Qed.

(** ** C38 *)

Lemma written_once : forall ops o1 o2, written ops o1 -> written ops o2 -> addressed o1 <> None ->
  (forall t, o2 <> Target t) -> o1 = o2.
Proof.
  intros ops o1 o2 W1 W2 A NT. inversion W1; subst; cbn [addressed] in A; try congruence;
    inversion W2; subst; try reflexivity; try congruence;
    try match goal with X : word (_ :: _) |- _ => destruct X as (? & ? & X & ?); injection X; intros; subst; congruence end;
    try (exfalso; eapply NT; reflexivity);
    match goal with
    | X : upper ?a = _, Y : upper ?a = _ |- _ => rewrite X in Y; discriminate
    | X : upper ?a = _ |- _ => vm_compute in X; discriminate
    end.
Qed.

(** The address an operand denotes when the whole program is known. *)
Definition denotes (s2 : st) (t : str) (v : Z) : Prop := address s2 t v.

Lemma address_later : forall s s2 t v, extends (labels s) (labels s2) -> address s t v -> address s2 t v.
Proof.
  intros s s2 t v X A. destruct A as [t v H|t v H1 H2].
  - apply a_number. unfold num in *. eapply parse_mono; eauto.
  - apply a_label; [unfold not_num in *; eapply parse_mono; eauto|eapply absolute_mono; eauto].
Qed.

(** An instruction with an address operand ends up in the image with the opcode of its
    short form and the address, if the instruction has a short form and the address was
    known to lie in the zero page, and otherwise with the opcode of its long form and the
    two bytes of the address, low byte first.  The address is the one the operand denotes
    when the whole program is known. *)
Lemma C38_sound_at : forall e fuel s words l s1 s2 s3 t0 ops o t sh lo,
  let c := mos6502 e in
  byte_files c -> sits c fuel s (Stmt KInstruction words l) s1 s2 ->
  opcode_stmt c s words t0 ops -> written ops o -> addressed o = Some (t, sh, lo) ->
  (forall op, ~ op_of (upper t0) Relative op) -> short_texts c s2 ->
  link c dummy_linker s2 = (s3, Ok tt) ->
  exists v, denotes s2 t v /\
    ((exists m op, sh = Some m /\ op_of (upper t0) m op /\ 0 <= v < 256 /\ address s t v /\
        slice (zlen (assembled s)) 2 (assembled s3) = [op; v]) \/
     (exists m op, lo = Some m /\ op_of (upper t0) m op /\ 0 <= v < 65536 /\
        (has (upper t0) sh -> forall w, address s t w -> ~ 0 <= w < 256) /\
        slice (zlen (assembled s)) 3 (assembled s3) = [op; v mod 256; v / 256])).
Proof.
  intros e fuel s words l s1 s2 s3 t0 ops o t sh lo c B H OS W AD NR NT LK.
  pose proof H as H'. destruct H' as (X & _).
  apply (C36_encoding _ _ _ _ _ _ _ _ OS) in X. destruct X as (o' & b & ds & W' & EN & EM).
  destruct (mos_refs _ _ _ _ _ EN) as [SR PL].
  assert (o = o').
  { eapply written_once; eauto; [congruence|]. intros x ->. inversion EN; subst; try (cbn [addressed] in *; discriminate);
      eapply NR; eauto. }
  subst o'. destruct (mos_fits e) as [F N].
  assert (EX : extends (labels s) (labels s2)).
  { destruct H as (_ & _ & _ & EX & _). exact EX. }
  assert (NONE : ds = [] -> slice (zlen (assembled s)) (zlen b) (assembled s3) = b)
    by (apply (sits_none c fuel s _ s1 s2 s3 b ds F H EM SR PL NT LK)).
  inversion EN; subst; try (cbn [addressed] in AD; discriminate);
    match goal with Y : addressed o = _ |- _ => rewrite Y in AD; injection AD as <- <- <- end;
    specialize (NONE eq_refl) || clear NONE.
  - exists v. split; [eapply address_later; eassumption|]. left. exists m, op.
    split; [reflexivity|]. split; [assumption|]. split; [assumption|]. split; [assumption|exact NONE].
  - match goal with Y : num _ _ _ 16 _ _ |- _ => rename Y into NU end.
    pose proof (unum_range _ _ _ _ _ NU ltac:(lia)) as RG.
    exists v. split; [eapply address_later; [exact EX|apply a_number; exact NU]|]. right. exists m, op.
    split; [reflexivity|]. split; [assumption|]. split; [exact RG|]. split; [|exact NONE].
    intros HS w A. assert (w = v).
    { inversion A; subst; unfold num, not_num in *; congruence. } subst w. match goal with Q : has _ _ -> _ |- _ => apply Q in HS end. lia.
  - destruct (sits_one c fuel s _ s1 s2 s3 _ _ F B H EM SR PL NT LK [op] 2 [] _ eq_refl eq_refl eq_refl eq_refl)
      as (v & (a & u & T & _ & RG & EC) & SL).
    unfold in_range in RG. cbn [ref ld_relative ld_bits_size] in RG. change (0 =? 0) with true in RG.
    unfold encoded in EC. cbn [ref ld_filter ld_bits] in EC. cbv zeta in EC. subst u.
    inversion T as [? Q1 Q|? ? Q]; subst; cbn [ref ld_relative ld_label] in *; [|lia].
    match goal with Y : not_num _ _ _ 16 _ |- _ => rename Y into NN end.
    exists v. split; [apply a_label; [unfold not_num in *; eapply parse_mono; eassumption|exact Q]|].
    right. exists m, op. split; [reflexivity|]. split; [assumption|]. split; [exact RG|]. split.
    + intros HS w A. inversion A; subst; [unfold num, not_num in *; congruence|].
      match goal with Q : forall v, known = Some v -> _ |- _ => apply Q; [congruence|exact HS] end.
    + unfold field_of in SL. cbn [mos6502 mk_cfg c_p big_endian] in SL. change (zlen [op; 0; 0]) with 3 in SL.
      rewrite SL. unfold byte_of. cbn [seq map app]. change (256 ^ Z.of_nat 0) with 1. change (256 ^ Z.of_nat 1) with 256.
      rewrite Z.div_1_r. rewrite (Z.mod_small (v / 256)); [reflexivity|].
      change (2 ^ 16) with 65536 in RG. split; [apply Z.div_pos; lia|apply Z.div_lt_upper_bound; lia].
Qed.
Theorem C38_sound : forall e fuel text s0 s words l s1 s2 s3 t0 ops o t sh lo,
  let c := mos6502 e in
  byte_files c -> sane s0 ->
  passes_through c fuel text s0 s (Stmt KInstruction words l) s1 s2 ->
  opcode_stmt c s words t0 ops -> written ops o -> addressed o = Some (t, sh, lo) ->
  (forall op, ~ op_of (upper t0) Relative op) -> short_texts c s2 ->
  link c dummy_linker s2 = (s3, Ok tt) ->
  exists v, denotes s2 t v /\
    ((exists m op, sh = Some m /\ op_of (upper t0) m op /\ 0 <= v < 256 /\ address s t v /\
        slice (zlen (assembled s)) 2 (assembled s3) = [op; v]) \/
     (exists m op, lo = Some m /\ op_of (upper t0) m op /\ 0 <= v < 65536 /\
        (has (upper t0) sh -> forall w, address s t w -> ~ 0 <= w < 256) /\
        slice (zlen (assembled s)) 3 (assembled s3) = [op; v mod 256; v / 256])).
Proof.
  intros e fuel text s0 s words l s1 s2 s3 t0 ops o t sh lo c B SN H.
  exact (C38_sound_at e fuel s words l s1 s2 s3 t0 ops o t sh lo B (passes_sits _ _ _ _ _ _ _ _ (proj1 (mos_fits e)) (proj2 (mos_fits e)) B SN H)).
Qed.
Print Assumptions C38_sound.

Definition c38_text : str := lines [".org $10"; "zp: .db 0"; "lda zp"; "sta far,x"; "far: nop"]%string.
Example C38_example :
  let ss := stmts_of c38_text in
  let s := fst (exec mos 5 (firstn 3 ss) (init_st [])) in
  let x := Stmt KInstruction [#"lda"; #"zp"] 3 in
  let s2 := fst (assemble mos 5 c38_text (init_st [])) in
  passes_through mos 5 c38_text (init_st []) s x (fst (exec mos 5 [x] s)) s2 /\
  opcode_stmt mos s [#"lda"; #"zp"] #"lda" [#"zp"] /\ written [#"zp"] (Direct #"zp") /\
  (forall op, ~ op_of #"LDA" Relative op) /\ no_text s2 /\
  address s #"zp" 0x10 /\
  (exists s3, link mos dummy_linker s2 = (s3, Ok tt) /\
     assembled s3 = [0; 0xA5; 0x10; 0x9D; 0x16; 0; 0xEA]).
Proof.
  cbv zeta. split; [reached 3%nat|]. split; [apply plain_stmt; vm_compute; reflexivity|].
  split; [apply w_direct; [exists "z"%char, #"p"; split; [reflexivity|discriminate]|discriminate]|].
  split. { intros op I. apply code_op_iff in I. vm_compute in I. discriminate. }
  split; [vm_compute; repeat constructor|].
  split; [apply a_label; vm_compute; reflexivity|]. eexists. split; vm_compute; reflexivity.
Qed.

(** A reference to a zero page label defined further down is not shortened, and is refused
    where only a short form exists. *)
Theorem C38_forward_refuted :
  assembled (mos_state ["lda zp"; "zp: nop"]%string) = [0xAD; 0; 0; 0xEA] /\
  snd (mos_run ["zp: lda (zp),y"]%string) = Ok tt /\
  snd (mos_run ["lda (zp),y"; "zp: nop"]%string) <> Ok tt.
Proof. split; [|split]; vm_compute; [reflexivity|reflexivity|discriminate]. Qed.
Print Assumptions C38_forward_refuted.
