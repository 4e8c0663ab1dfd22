(** Properties C40, C41 and C50: MIPS instructions, halves of 32 bit values, branches and
    jumps. *)
From Coq Require Import Lia.
From Verif Require Import Reach.
From Verif Require Import Py PyFacts Utils Tokenizer State Assembler SpecUtils SpecParse SpecExec SpecLink
  UtilsFacts SpecCpu SpecPlace Mips32 SpecMips CpuFacts WordFacts MipsFacts FitMips LabelMono Demo PropsPlace WordLink
  PropsMosLink PropsFit FitFacts.
Local Open Scope Z_scope.

(** ** C40 *)

(** An instruction of the manual, other than the refused and deviating ones, assembles
    exactly when its operands are those of its format, and then to the word of the manual
    in the byte order of the assembler. *)
Theorem C40_encoding : forall be e fuel words l s s' t0 ops f,
  opcode_stmt (mips32 be e) s words t0 ops ->
  In (lower t0, f) manual -> ~ In (lower t0) refused -> ~ In (lower t0) deviating ->
  exec (mips32 be e) fuel [Stmt KInstruction words l] s = (s', Ok tt) <->
  exists w ds, encodes be s f ops w ds /\ emitted (referring s ds) (word_bytes be w) s'.
Proof.
  intros be e fuel words l s s' t0 ops f OS I NR ND.
  rewrite (exec_opcode _ _ _ _ _ fuel l OS). rewrite mips_key.
  destruct (manual_call _ _ I NR ND be) as (k & D & R & A).
  rewrite (fun_result _ _ _ (mips_run be k)) by (rewrite mips_lookup, D; reflexivity).
  rewrite R. split.
  - intros (b & E & EM). destruct (mips_run be (call_of f) (t0 :: ops) s) as [s1 r] eqn:X. cbn [fst snd] in *. subst r.
    apply A in X. destruct X as (w & ds & EN & -> & ->). eauto.
  - intros (w & ds & EN & EM). exists (word_bytes be w).
    assert (X : mips_run be (call_of f) (t0 :: ops) s = (referring s ds, Ok (Some (word_bytes be w)))) by (apply A; eauto).
    rewrite X. split; [reflexivity|exact EM].
Qed.
Print Assumptions C40_encoding.

(** Anything that is not in the manual is rejected, and so are the refused instructions
    with whatever operands. *)
Theorem C40_unknown : forall be e words s t0 ops,
  opcode_stmt (mips32 be e) s words t0 ops -> (forall f, ~ In (lower t0, f) manual) ->
  rejected (mips32 be e) s words.
Proof.
  intros be e words s t0 ops OS NI fuel l. rewrite (exec_opcode _ _ _ _ _ fuel l OS). rewrite mips_key.
  unfold opcode_assemble. rewrite mips_lookup.
  destruct (dget str_eqb mips_calls (lower t0)) as [k|] eqn:D; [exfalso|eexists; reflexivity].
  pose proof tables_ok as H. apply andb_prop in H. destruct H as [H _]. apply andb_prop in H. destruct H as [_ H].
  rewrite forallb_forall in H. apply (PyFacts.dget_In str_eqb str_eqb_eq) in D. apply H in D. apply str_in_In in D.
  apply in_map_iff in D. destruct D as ([n f] & E & D). cbn [fst] in E. subst n. exact (NI f D).
Qed.
Print Assumptions C40_unknown.

Theorem C40_refused_refuted : forall be e words s t0 ops,
  opcode_stmt (mips32 be e) s words t0 ops -> In (lower t0) refused -> rejected (mips32 be e) s words.
Proof.
  intros be e words s t0 ops OS I fuel l. rewrite (exec_opcode _ _ _ _ _ fuel l OS). rewrite mips_key.
  assert (D : dget str_eqb mips_calls (lower t0) = Some Swapped).
  { assert (X : forallb (fun n => match dget str_eqb mips_calls n with Some Swapped => true | _ => false end) refused = true)
      by (vm_compute; reflexivity).
    rewrite forallb_forall in X. apply X in I. destruct (dget str_eqb mips_calls (lower t0)) as [[]|]; try discriminate. reflexivity. }
  rewrite (opcode_fun _ _ _ (mips_run be Swapped)) by (rewrite mips_lookup, D; reflexivity). eexists. reflexivity.
Qed.
Print Assumptions C40_refused_refuted.

(** At most one encoding. *)
Theorem C40_unambiguous : forall be s f ops w1 ds1 w2 ds2,
  encodes be s f ops w1 ds1 -> encodes be s f ops w2 ds2 -> w1 = w2 /\ ds1 = ds2.
Proof.
  intros be s f ops w1 ds1 w2 ds2 H1 H2.
  assert (R : forall t a b, reg t a -> reg t b -> a = b).
  { intros t a b A B. apply reg_iff in A, B. congruence. }
  assert (V : forall t n sg d v1 e1 v2 e2, value be s t n sg d v1 e1 -> value be s t n sg d v2 e2 -> v1 = v2 /\ e1 = e2).
  { intros t n sg d v1 e1 v2 e2 A B. apply value_iff in A, B.
    destruct A as [[A ->]|(A & -> & ->)], B as [[B ->]|(B & -> & ->)]; rewrite A in B; try discriminate; [injection B as ->|]; auto. }
  inversion H1; subst; inversion H2; subst;
    repeat match goal with A : reg ?t ?a, B : reg ?t ?b |- _ => first [constr_eq a b; fail 1 | pose proof (R _ _ _ A B); subst] end;
    try match goal with A : value _ _ _ _ _ _ _ _, B : value _ _ _ _ _ _ _ _ |- _ => destruct (V _ _ _ _ _ _ _ _ A B) as [-> ->] end;
    try (split; reflexivity).
  - unfold num in *. split; congruence.
Qed.
Print Assumptions C40_unambiguous.

Definition mips_be := mips32 true demo_env.
Definition mips_le := mips32 false demo_env.
Definition mips_run_text (be : bool) (l : list string) :=
  assemble (mips32 be demo_env) 5 (lines l) (init_st []).

Example C40_example :
  let s := init_st [] in
  opcode_stmt mips_be s [#"ADD"; #"$t0"; #"$S1"; #"$18"] #"ADD" [#"$t0"; #"$S1"; #"$18"] /\
  In (lower #"ADD", RdRsRt 0x20) manual /\
  encodes true s (RdRsRt 0x20) [#"$t0"; #"$S1"; #"$18"] 0x02324020 [] /\
  word_bytes true 0x02324020 = [0x02; 0x32; 0x40; 0x20] /\
  assembled (fst (mips_run_text true ["ADD $t0, $S1, $18"; "lw $ra, -4($sp)"; "sll $1,$2,31"; "ori $1,$1,0xffff"; "j 0x400"; "syscall"]%string)) =
    [0x02; 0x32; 0x40; 0x20;  0x8f; 0xbf; 0xff; 0xfc;  0; 2; 15; 192;  0x34; 0x21; 0xff; 0xff;  0x08; 0; 1; 0;  0; 0; 0; 12] /\
  assembled (fst (mips_run_text false ["ADD $t0, $S1, $18"]%string)) = [0x20; 0x40; 0x32; 0x02] /\
  snd (mips_run_text true ["add $t0, $t1"]%string) = Err (AExc InvalidInstruction) /\
  snd (mips_run_text true ["add $t0, $t1, 5"]%string) = Err (AExc InvalidInstruction) /\
  snd (mips_run_text true ["sll $t0, $t1, 32"]%string) <> Ok tt.
Proof.
  cbv zeta. split; [apply plain_stmt; reflexivity|]. split; [vm_compute; tauto|].
  split. { apply (e_rd_rs_rt true (init_st []) 0x20 _ _ _ 8 17 18); apply reg_iff; vm_compute; reflexivity. }
  split; [vm_compute; reflexivity|]. split; [vm_compute; reflexivity|]. split; [vm_compute; reflexivity|].
  split; [vm_compute; reflexivity|]. split; [vm_compute; reflexivity|]. vm_compute. discriminate.
Qed.

(** The deviations: sltu has the function code 0x29 instead of 0x2B, sltiu the opcode of
    addiu, and jalr does not name the link register. *)
Theorem C40_deviating_refuted :
  assembled (fst (mips_run_text true ["sltu $1,$2,$3"]%string)) = word_bytes true (r_word 2 3 1 0 0x29) /\
  word_bytes true (r_word 2 3 1 0 0x29) <> word_bytes true (r_word 2 3 1 0 0x2B) /\
  assembled (fst (mips_run_text true ["sltiu $1,$2,5"]%string)) = assembled (fst (mips_run_text true ["addiu $1,$2,5"]%string)) /\
  assembled (fst (mips_run_text true ["jalr $1"]%string)) = word_bytes true (r_word 1 0 0 0 9) /\
  word_bytes true (r_word 1 0 0 0 9) <> word_bytes true (r_word 1 0 31 0 9) /\
  snd (mips_run_text true ["or $1,$2,$3"]%string) = Err (AExc InvalidInstruction).
Proof.
  split; [vm_compute; reflexivity|]. split; [vm_compute; discriminate|]. split; [vm_compute; reflexivity|].
  split; [vm_compute; reflexivity|]. split; [vm_compute; discriminate|]. vm_compute. reflexivity.
Qed.

(** ** Linked words *)

Lemma mips_refs : forall be s f ops w ds, encodes be s f ops w ds -> Forall sound_ref ds /\ placed 4 ds.
Proof.
  assert (Z0 : Forall sound_ref [] /\ placed 4 []) by (split; [apply Forall_nil|apply placed_nil]).
  assert (V : forall be s t n sg d v ds, value be s t n sg d v ds -> sound_ref d -> ld_offset d = 0 -> ld_size d = 4 ->
    Forall sound_ref ds /\ placed 4 ds).
  { intros be s t n sg d v ds V SR O SZ. destruct V; [exact Z0|]. split; [repeat constructor; apply SR|apply placed_one; lia]. }
  intros be s f ops w ds H. destruct H; try exact Z0;
    (eapply V; [eassumption|sound; intros b0 E; injection E as <-; cbn; lia|reflexivity|reflexivity]).
Qed.
Lemma word_bytes_len : forall be w, zlen (word_bytes be w) = 4.
Proof. intros [] w; reflexivity. Qed.

Section LinkedMips.
  Context (be : bool) (e : env) (fuel : nat) (text : str) (s0 s : st) (words : list str) (l : Z) (s1 s2 s3 : st)
    (t0 : str) (ops : list str) (f : format).
  Let c := mips32 be e.
  Context (B : byte_files c) (SN : sane s0)
    (H : passes_through c fuel text s0 s (Stmt KInstruction words l) s1 s2)
    (OS : opcode_stmt c s words t0 ops) (I : In (lower t0, f) manual)
    (NR : ~ In (lower t0) refused) (ND : ~ In (lower t0) deviating) (NT : short_texts c s2)
    (LK : link c dummy_linker s2 = (s3, Ok tt)).

  Lemma mips_emitted : exists w ds, encodes be s f ops w ds /\ emitted (referring s ds) (word_bytes be w) s1.
  Proof. destruct H as (_ & _ & _ & _ & X & _). apply (C40_encoding _ _ _ _ _ _ _ _ _ _ OS I NR ND) in X. exact X. Qed.

  Lemma mips_known : forall w, encodes be s f ops w [] ->
    slice (zlen (assembled s)) 4 (assembled s3) = word_bytes be w.
  Proof.
    intros w EN. destruct mips_emitted as (w' & ds & EN' & EM).
    destruct (C40_unambiguous _ _ _ _ _ _ _ _ EN EN') as [<- <-].
    destruct (mips_fits be e) as [F N].
    rewrite <- (word_bytes_len be w). 
    apply (linked_none c fuel text s0 s _ s1 s2 s3 _ [] F N B SN H EM); auto; [apply placed_nil].
  Qed.
  Lemma mips_filled : forall w t bits rel hi lo g, encodes be s f ops w [word_ref t bits rel hi lo g] ->
    0 <= w < 2 ^ 32 -> 0 <= lo <= hi -> hi < 32 -> (w / 2 ^ lo) mod 2 ^ (hi - lo + 1) = 0 ->
    exists a v, target (mips_p be) (labels s2) (word_ref t bits rel hi lo g) a v /\
      in_range (word_ref t bits rel hi lo g) v /\
      let u := match g with Some h => h v | None => v end in
      - 2 ^ (hi - lo) <= u < 2 ^ (hi - lo + 1) /\
      slice (zlen (assembled s)) 4 (assembled s3) = word_bytes be (w + (u mod 2 ^ (hi - lo + 1)) * 2 ^ lo).
  Proof.
    intros w t bits rel hi lo g EN W L HI Z0. destruct mips_emitted as (w' & ds & EN' & EM).
    destruct (C40_unambiguous _ _ _ _ _ _ _ _ EN EN') as [<- <-].
    destruct (mips_refs _ _ _ _ _ _ EN) as [SR PL]. destruct (mips_fits be e) as [F N].
    rewrite <- (word_bytes_len be w) in PL.
    destruct (linked_word c fuel text s0 s _ s1 s2 s3 _ _ F N B SN H EM SR PL NT LK 4 w _ hi lo eq_refl
      (word_bytes_eq be w W) W eq_refl eq_refl eq_refl L HI Z0) as (a & v & T & _ & R & OK & SL).
    exists a, v. split; [exact T|]. split; [exact R|]. cbv zeta.
    unfold filtered in SL, OK. cbn [word_ref ld_filter] in SL, OK.
    split. { destruct OK as [_ OK]. unfold f_width, f_val, f_hi, f_lo in OK. cbn [fst snd] in OK. replace (hi - lo + 1 - 1) with (hi - lo) in OK by lia. exact OK. }
    change (Z.of_nat 4) with 4 in SL. change (big_endian (c_p c)) with be in SL. rewrite SL. symmetry. apply word_bytes_eq.
    pose proof (Z.mod_pos_bound (match g with Some h => h v | None => v end) (2 ^ (hi - lo + 1)) ltac:(apply Z.pow_pos_nonneg; lia)) as M.
    split; [apply Z.add_nonneg_nonneg; [lia|apply Z.mul_nonneg_nonneg; [lia|apply Z.pow_nonneg; lia]]|].
    rewrite <- lor_field by assumption.
    destruct (Z.eq_dec (Z.lor w (match g with Some h => h v | None => v end mod 2 ^ (hi - lo + 1) * 2 ^ lo)) 0) as [->|NZ]; [lia|].
    assert (V : 0 <= match g with Some h => h v | None => v end mod 2 ^ (hi - lo + 1) * 2 ^ lo < 2 ^ 32).
    { assert (0 < 2 ^ lo) by (apply Z.pow_pos_nonneg; lia).
      assert (2 ^ (hi + 1) = 2 ^ (hi - lo + 1) * 2 ^ lo) by (rewrite <- Z.pow_add_r by lia; f_equal; lia).
      assert (2 ^ (hi + 1) <= 2 ^ 32) by (apply Z.pow_le_mono_r; lia). nia. }
    assert (0 <= Z.lor w (match g with Some h => h v | None => v end mod 2 ^ (hi - lo + 1) * 2 ^ lo)) by (apply Z.lor_nonneg; lia).
    apply Z.log2_lt_pow2; [lia|]. rewrite Z.log2_lor by lia.
    apply Z.max_lub_lt.
    - destruct (Z.eq_dec w 0) as [->|]; [reflexivity|apply Z.log2_lt_pow2; lia].
    - destruct (Z.eq_dec (match g with Some h => h v | None => v end mod 2 ^ (hi - lo + 1) * 2 ^ lo) 0) as [->|]; [reflexivity|].
      apply Z.log2_lt_pow2; lia.
  Qed.
End LinkedMips.

(** ** C41 *)

(** The 32 bit value an operand stands for once all labels are known. *)
Inductive stands_for (be : bool) (lbls : list (str * label)) (t : str) (v : Z) : Prop :=
| sf_number : parse_integer (mips_p be) lbls t 32 false = Ok (Some v) -> stands_for be lbls t v
| sf_label : parse_integer (mips_p be) lbls t 32 false = Ok None ->
    label_absolute (mips_p be) lbls t = Ok (Some v) -> stands_for be lbls t v.
Lemma stands_once : forall be lbls t v w, stands_for be lbls t v -> stands_for be lbls t w -> v = w.
Proof. intros be lbls t v w [A|A A'] [B|B B']; congruence. Qed.

Lemma labels_grow : forall be e fuel text s0 s x s1 s2, sane s0 ->
  passes_through (mips32 be e) fuel text s0 s x s1 s2 -> extends (labels s) (labels s2).
Proof.
  intros be e fuel text s0 s x s1 s2 (T & _) H. destruct (mips_fits be e) as [F N].
  destruct (through_good _ _ _ _ _ _ _ _ F N H) as (G1 & G2 & G3).
  destruct (G1 T) as (T1 & _). destruct (G2 T1) as (T2 & _ & _ & L1 & _). destruct (G3 T2) as (_ & _ & _ & L2 & _).
  eapply ExecFacts.extends_trans; eauto.
Qed.

Definition half (high : bool) (op : Z) : format := if high then RtHigh op else RtLow op.
Definition half_of (high : bool) (v : Z) : Z := if high then v / 65536 else v mod 65536.

Lemma mips_op_range : forall n f, In (n, f) manual -> 0 <= code f < 64.
Proof.
  intros n f I. assert (X : forallb (fun '(_, f) => (0 <=? code f) && (code f <? 64)) manual = true) by (vm_compute; reflexivity).
  rewrite forallb_forall in X. apply X in I. lia.
Qed.

Lemma i_word_zero : forall op rs rt, (i_word op rs rt 0 / 2 ^ 0) mod 2 ^ (15 - 0 + 1) = 0.
Proof.
  intros. unfold i_word. rewrite Z.mod_0_l by (cbn; lia). change (2 ^ 0) with 1. rewrite Z.div_1_r.
  change (15 - 0 + 1) with 16. change (2 ^ 26) with (1024 * 2 ^ 16). change (2 ^ 21) with (32 * 2 ^ 16).
  replace (op * (1024 * 2 ^ 16) + rs * (32 * 2 ^ 16) + rt * 2 ^ 16 + 0) with ((op * 1024 + rs * 32 + rt) * 2 ^ 16) by ring.
  apply Z.mod_mul. cbn. lia.
Qed.
Lemma i_word_range : forall op rs rt v, 0 <= op < 64 -> 0 <= rs < 32 -> 0 <= rt < 32 -> 0 <= i_word op rs rt v < 2 ^ 32.
Proof.
  intros. unfold i_word. change (2 ^ 26) with 67108864. change (2 ^ 21) with 2097152. change (2 ^ 16) with 65536. change (2 ^ 32) with 4294967296.
  pose proof (Z.mod_pos_bound v 65536 ltac:(lia)). lia.
Qed.

(** lui and lhi leave the upper, llo the lower half of the value of the operand in the
    image, whether it is a number or a label, defined before or after. *)
Theorem C41_half : forall be e fuel text s0 s words l s1 s2 s3 t0 ops high op,
  let c := mips32 be e in
  byte_files c -> sane s0 ->
  passes_through c fuel text s0 s (Stmt KInstruction words l) s1 s2 ->
  opcode_stmt c s words t0 ops -> In (lower t0, half high op) manual -> short_texts c s2 ->
  link c dummy_linker s2 = (s3, Ok tt) ->
  exists r t n v, ops = [r; t] /\ reg r n /\ stands_for be (labels s2) t v /\ 0 <= v < 2 ^ 32 /\
    slice (zlen (assembled s)) 4 (assembled s3) = word_bytes be (i_word op 0 n (half_of high v)).
Proof.
  intros be e fuel text s0 s words l s1 s2 s3 t0 ops high op c B SN H OS IM NT LK.
  assert (NR : ~ In (lower t0) refused /\ ~ In (lower t0) deviating).
  { assert (X : forallb (fun '(n, f) => match f with RtHigh _ | RtLow _ => negb (str_in n refused) && negb (str_in n deviating) | _ => true end) manual = true)
      by (vm_compute; reflexivity).
    rewrite forallb_forall in X. apply X in IM. assert (Y : negb (str_in (lower t0) refused) && negb (str_in (lower t0) deviating) = true)
      by (destruct high; exact IM).
    apply andb_prop in Y. destruct Y as [Y1 Y2]. apply negb_true_iff in Y1, Y2.
    split; intros Z; apply str_in_In in Z; congruence. }
  destruct NR as [NR ND].
  pose proof (labels_grow _ _ _ _ _ _ _ _ _ SN H) as EX. pose proof (mips_op_range _ _ IM) as OP.
  destruct (mips_emitted be e fuel text s0 s words l s1 s2 t0 ops _ H OS IM NR ND) as (w & ds & EN & EM).
  destruct high; cbn [half code half_of] in *; inversion EN; subst;
    match goal with R : reg ?a ?n |- _ => pose proof (reg_range _ _ R); exists a; rename R into RG end;
    match goal with V : value _ _ ?t _ _ _ _ _ |- _ => exists t; apply value_iff in V; destruct V as [[NU ->]|(NN & -> & ->)] end; exists rt.
  - exists v. split; [reflexivity|]. split; [exact RG|]. split; [apply sf_number; eapply parse_mono; [exact EX|exact NU]|].
    split; [apply (unum_range _ _ _ _ _ NU); lia|].
    eapply mips_known; eauto.
  - destruct (mips_filled be e fuel text s0 s words l s1 s2 s3 t0 _ _ B SN H OS IM NR ND NT LK _ _ _ _ _ _ _ EN)
      as (a' & v & T & R & _ & SL); [apply i_word_range; lia|lia|lia|apply i_word_zero|].
    exists v. unfold in_range in R. cbn [word_ref ld_relative ld_bits_size] in R. change (0 =? 0) with true in R. cbv iota in R.
    inversion T as [? Q1 Q|? ? Q]; subst; cbn [word_ref ld_relative ld_label] in *; [|contradiction].
    split; [reflexivity|]. split; [exact RG|].
    split; [apply sf_label; [eapply parse_mono; [exact EX|exact NN]|exact Q]|]. split; [exact R|].
    rewrite SL. f_equal. rewrite shiftr_div by lia. unfold i_word.
    change (0 / 65536) with 0. change (15 - 0 + 1) with 16. change (2 ^ 0) with 1. change (0 mod 2 ^ 16) with 0. change (2 ^ 16) with 65536. lia.
  - exists v. split; [reflexivity|]. split; [exact RG|]. split; [apply sf_number; eapply parse_mono; [exact EX|exact NU]|].
    split; [apply (unum_range _ _ _ _ _ NU); lia|].
    replace (i_word op 0 rt (v mod 65536)) with (i_word op 0 rt v) by (unfold i_word; rewrite Z.mod_mod by lia; reflexivity).
    eapply mips_known; eauto.
  - destruct (mips_filled be e fuel text s0 s words l s1 s2 s3 t0 _ _ B SN H OS IM NR ND NT LK _ _ _ _ _ _ _ EN)
      as (a' & v & T & R & _ & SL); [apply i_word_range; lia|lia|lia|apply i_word_zero|].
    exists v. unfold in_range in R. cbn [word_ref ld_relative ld_bits_size] in R. change (0 =? 0) with true in R. cbv iota in R.
    inversion T as [? Q1 Q|? ? Q]; subst; cbn [word_ref ld_relative ld_label] in *; [|contradiction].
    split; [reflexivity|]. split; [exact RG|].
    split; [apply sf_label; [eapply parse_mono; [exact EX|exact NN]|exact Q]|]. split; [exact R|].
    rewrite SL. f_equal. rewrite land_low. unfold i_word.
    change (15 - 0 + 1) with 16. change (2 ^ 0) with 1. change (0 mod 2 ^ 16) with 0. change (2 ^ 16) with 65536. lia.
Qed.
Print Assumptions C41_half.

(** Two instructions with the same operand, one taking the upper and one the lower half,
    together hold the whole value. *)
Theorem C41_recombine : forall be e fuel text s0 s2 s3 sa wa la sa1 ta ra t opa na sb wb lb sb1 tb rb opb nb,
  let c := mips32 be e in
  byte_files c -> sane s0 ->
  passes_through c fuel text s0 sa (Stmt KInstruction wa la) sa1 s2 ->
  passes_through c fuel text s0 sb (Stmt KInstruction wb lb) sb1 s2 ->
  opcode_stmt c sa wa ta [ra; t] -> In (lower ta, RtHigh opa) manual -> reg ra na ->
  opcode_stmt c sb wb tb [rb; t] -> In (lower tb, RtLow opb) manual -> reg rb nb -> short_texts c s2 ->
  link c dummy_linker s2 = (s3, Ok tt) ->
  exists hi lo, 0 <= hi < 65536 /\ 0 <= lo < 65536 /\ stands_for be (labels s2) t (hi * 65536 + lo) /\
    slice (zlen (assembled sa)) 4 (assembled s3) = word_bytes be (i_word opa 0 na hi) /\
    slice (zlen (assembled sb)) 4 (assembled s3) = word_bytes be (i_word opb 0 nb lo).
Proof.
  intros be e fuel text s0 s2 s3 sa wa la sa1 ta ra t opa na sb wb lb sb1 tb rb opb nb c B SN HA HB OA IA RA OB IB RB NT LK.
  destruct (C41_half be e fuel text s0 sa wa la sa1 s2 s3 ta _ true opa B SN HA OA IA NT LK) as (r1 & t1 & n1 & v & E1 & R1 & S1 & V1 & L1).
  destruct (C41_half be e fuel text s0 sb wb lb sb1 s2 s3 tb _ false opb B SN HB OB IB NT LK) as (r2 & t2 & n2 & v' & E2 & R2 & S2 & V2 & L2).
  injection E1 as <- <-. injection E2 as <- <-.
  assert (v' = v) by (eapply stands_once; eauto). subst v'.
  assert (n1 = na) by (apply reg_iff in R1, RA; congruence). assert (n2 = nb) by (apply reg_iff in R2, RB; congruence). subst.
  exists (v / 65536), (v mod 65536). change (2 ^ 32) with (65536 * 65536) in V1.
  split; [split; [apply Z.div_pos; lia|apply Z.div_lt_upper_bound; lia]|]. split; [apply Z.mod_pos_bound; lia|].
  split; [rewrite Z.mul_comm, <- Z.div_mod by lia; exact S1|]. split; [exact L1|exact L2].
Qed.
Print Assumptions C41_recombine.

Definition c41_text : str := lines [".org 0x80010000"; "lui $t0, data"; "nop1: llo $t0, data"; ".fill 0x100"; "data: syscall"]%string.
Example C41_example :
  let ss := stmts_of c41_text in
  let sa := fst (exec mips_be 5 (firstn 1 ss) (init_st [])) in
  let sb := fst (exec mips_be 5 (firstn 3 ss) (init_st [])) in
  let xa := Stmt KInstruction [#"lui"; #"$t0"; #"data"] 2 in
  let xb := Stmt KInstruction [#"llo"; #"$t0"; #"data"] 3 in
  let s2 := fst (assemble mips_be 5 c41_text (init_st [])) in
  byte_files mips_be /\
  passes_through mips_be 5 c41_text (init_st []) sa xa (fst (exec mips_be 5 [xa] sa)) s2 /\
  passes_through mips_be 5 c41_text (init_st []) sb xb (fst (exec mips_be 5 [xb] sb)) s2 /\
  opcode_stmt mips_be sa [#"lui"; #"$t0"; #"data"] #"lui" [#"$t0"; #"data"] /\
  opcode_stmt mips_be sb [#"llo"; #"$t0"; #"data"] #"llo" [#"$t0"; #"data"] /\
  In (#"lui", RtHigh 0x0F) manual /\ In (#"llo", RtLow 0x18) manual /\ no_text s2 /\
  stands_for true (labels s2) #"data" 0x80010108 /\
  exists s3, link mips_be dummy_linker s2 = (s3, Ok tt) /\
    firstn 8 (assembled s3) = [0x3C; 8; 0x80; 1; 0x60; 8; 0x01; 8].
Proof.
  cbv zeta. split; [exact mos_files|]. split; [reached 1%nat|]. split; [reached 3%nat|].
  split; [apply plain_stmt; vm_compute; reflexivity|]. split; [apply plain_stmt; vm_compute; reflexivity|].
  split; [vm_compute; tauto|]. split; [vm_compute; tauto|]. split; [untexted|].
  split; [apply sf_label; vm_compute; reflexivity|].
  match goal with |- exists _, ?x = _ /\ _ => exists (fst x) end.
  split; [apply fine_pair; vm_compute; reflexivity|vm_compute; reflexivity].
Qed.

(** A 16 bit operand of lui is not the upper half itself: lui $8, 0x1234 loads 0. *)
Theorem C41_lui_refuted :
  assembled (fst (mips_run_text true ["lui $8, 0x1234"]%string)) = word_bytes true (i_word 0x0F 0 8 0).
Proof. vm_compute. reflexivity. Qed.

(** ** C50 *)

(** The branch instructions of the manual: opcode, the registers and the target. *)
Inductive branch_form (ops : list str) (t : str) : format -> Z -> Z -> Z -> Prop :=
| bf_two op a b rs rt : ops = [a; b; t] -> reg a rs -> reg b rt -> branch_form ops t (RsRtTarget op) op rs rt
| bf_one op a rs : ops = [a; t] -> reg a rs -> branch_form ops t (RsTarget op) op rs 0.

Lemma branch_fine : forall n f ops t op rs rt, In (n, f) manual -> branch_form ops t f op rs rt ->
  ~ In n refused /\ ~ In n deviating.
Proof.
  intros n f ops t op rs rt I BF.
  assert (X : forallb (fun '(n, f) => match f with RsRtTarget _ | RsTarget _ | Target _ => negb (str_in n refused) && negb (str_in n deviating) | _ => true end) manual = true)
    by (vm_compute; reflexivity).
  rewrite forallb_forall in X. apply X in I. assert (Y : negb (str_in n refused) && negb (str_in n deviating) = true)
    by (destruct BF; exact I).
  apply andb_prop in Y. destruct Y as [Y1 Y2]. apply negb_true_iff in Y1, Y2.
  split; intros Z; apply str_in_In in Z; congruence.
Qed.

Lemma branch_linked : forall be e fuel text s0 s words l s1 s2 s3 t0 ops f t op rs rt,
  let c := mips32 be e in
  byte_files c -> sane s0 ->
  passes_through c fuel text s0 s (Stmt KInstruction words l) s1 s2 ->
  opcode_stmt c s words t0 ops -> In (lower t0, f) manual -> branch_form ops t f op rs rt ->
  not_num (mips_p be) s t 18 true -> 0 <= pc s -> short_texts c s2 ->
  link c dummy_linker s2 = (s3, Ok tt) ->
  exists v, label_relative (mips_p be) (labels s2) t (pc s + 4) = Ok (Some v) /\ -131072 <= v < 131072 /\
    slice (zlen (assembled s)) 4 (assembled s3) = word_bytes be (i_word op rs rt (v / 4)).
Proof.
  intros be e fuel text s0 s words l s1 s2 s3 t0 ops f t op rs rt c B SN H OS IM BF NN PC NT LK.
  destruct (branch_fine _ _ _ _ _ _ _ IM BF) as [NR ND]. pose proof (mips_op_range _ _ IM) as OP.
  destruct (mips_emitted be e fuel text s0 s words l s1 s2 t0 ops _ H OS IM NR ND) as (w & ds & EN & EM).
  assert (G : negb (pc s + 4 =? 0) = true) by (apply negb_true_iff, Z.eqb_neq; lia).
  assert (G0 : pc s + 4 =? 0 = false) by (apply Z.eqb_neq; lia).
  assert (RR : 0 <= rs < 32 /\ 0 <= rt < 32).
  { destruct BF as [? ? ? ? ? _ R1 R2|? ? ? _ R1]; [apply reg_range in R1, R2|apply reg_range in R1]; lia. }
  assert (EN' : encodes be s f ops (i_word op rs rt (0 / 4)) [word_ref t 18 (pc s + 4) 15 0 (Some (fun x => Z.shiftr x 2))] /\ code f = op).
  { assert (VN : forall d, value be s t 18 (negb (pc s + 4 =? 0)) d 0 [d]) by (intros d; apply v_name; rewrite G; exact NN).
    assert (PT : plain t) by (destruct BF as [? ? ? ? ? -> _ _|? ? ? -> _]; inversion EN; subst; assumption).
    destruct BF as [op' a b rs rt -> R1 R2|op' a rs -> R1]; (split; [|reflexivity]).
    - apply e_rs_rt_target; auto.
    - apply e_rs_target; auto. }
  destruct EN' as [EN' CO]. rewrite CO in OP.
  destruct (mips_filled be e fuel text s0 s words l s1 s2 s3 t0 _ _ B SN H OS IM NR ND NT LK _ _ _ _ _ _ _ EN')
    as (a' & v & T & R & _ & SL); [apply i_word_range; lia|lia|lia|apply i_word_zero|].
  exists v. unfold in_range in R. cbn [word_ref ld_relative ld_bits_size] in R. rewrite G0 in R.
  inversion T as [? Q _|? ? _ _ Q]; subst; cbn [word_ref ld_relative ld_label] in Q; [lia|].
  split; [exact Q|]. split; [exact R|]. rewrite SL. f_equal. rewrite shiftr_div by lia. unfold i_word.
  change (0 / 4) with 0. change (15 - 0 + 1) with 16. change (2 ^ 0) with 1. change (0 mod 2 ^ 16) with 0.
  change (2 ^ 2) with 4. lia.
Qed.

(** A branch that links holds the displacement, in words from the following instruction,
    that leads to its label, provided the label is a whole number of words away. *)
Theorem C50_branch : forall be e fuel text s0 s words l s1 s2 s3 t0 ops f t op rs rt,
  let c := mips32 be e in
  byte_files c -> sane s0 ->
  passes_through c fuel text s0 s (Stmt KInstruction words l) s1 s2 ->
  opcode_stmt c s words t0 ops -> In (lower t0, f) manual -> branch_form ops t f op rs rt ->
  not_num (mips_p be) s t 18 true -> no_select t -> no_ops t -> t <> [] -> 0 <= pc s -> short_texts c s2 ->
  link c dummy_linker s2 = (s3, Ok tt) ->
  exists a disp, address_of (labels s2) t a /\ -32768 <= disp < 32768 /\
    slice (zlen (assembled s)) 4 (assembled s3) = word_bytes be (i_word op rs rt disp) /\
    pc s + 4 + 4 * disp = a - (a - pc s) mod 4.
Proof.
  intros be e fuel text s0 s words l s1 s2 s3 t0 ops f t op rs rt c B SN H OS IM BF NN NS NO NE PC NT LK.
  destruct (branch_linked be e fuel text s0 s words l s1 s2 s3 t0 ops f t op rs rt B SN H OS IM BF NN PC NT LK) as (v & V & R & SL).
  destruct (plain_relative _ _ _ _ _ NS NO NE V) as (a & A & ->).
  exists a, ((a - (pc s + 4)) / 4). split; [exact A|]. split; [|split; [exact SL|]].
  - split; [apply Z.div_le_lower_bound; lia|apply Z.div_lt_upper_bound; lia].
  - replace (a - pc s) with (a - (pc s + 4) + 1 * 4) by lia. rewrite Z.mod_add by lia.
    pose proof (Z.div_mod (a - (pc s + 4)) 4 ltac:(lia)). lia.
Qed.
Print Assumptions C50_branch.

Theorem C50_too_far : forall be e fuel text s0 s words l s1 s2 t0 ops f t op rs rt,
  let c := mips32 be e in
  byte_files c -> sane s0 ->
  passes_through c fuel text s0 s (Stmt KInstruction words l) s1 s2 ->
  opcode_stmt c s words t0 ops -> In (lower t0, f) manual -> branch_form ops t f op rs rt ->
  not_num (mips_p be) s t 18 true -> no_select t -> no_ops t -> t <> [] -> 0 <= pc s -> short_texts c s2 ->
  (forall a, address_of (labels s2) t a -> ~ -131072 <= a - (pc s + 4) < 131072) ->
  snd (link c dummy_linker s2) <> Ok tt.
Proof.
  intros be e fuel text s0 s words l s1 s2 t0 ops f t op rs rt c B SN H OS IM BF NN NS NO NE PC NT FAR LK.
  destruct (link c dummy_linker s2) as [s3 r] eqn:E. cbn [snd] in LK. subst r.
  destruct (branch_linked be e fuel text s0 s words l s1 s2 s3 t0 ops f t op rs rt B SN H OS IM BF NN PC NT E) as (v & V & R & SL).
  destruct (plain_relative _ _ _ _ _ NS NO NE V) as (a & A & ->). exact (FAR a A R).
Qed.
Print Assumptions C50_too_far.

Lemma j_word_zero : forall op, (j_word op (0 / 4) / 2 ^ 0) mod 2 ^ (25 - 0 + 1) = 0.
Proof.
  intros. unfold j_word. change (0 / 4) with 0. change (2 ^ 0) with 1. rewrite Z.div_1_r, Z.add_0_r.
  change (25 - 0 + 1) with 26. apply Z.mod_mul. cbn. lia.
Qed.

(** A jump that links holds the word index of its target: the processor, which keeps the
    upper four bits of the address of the following instruction, arrives at the label if
    the label is in the same 256 MB and at a multiple of four. *)
Theorem C50_jump : forall be e fuel text s0 s words l s1 s2 s3 t0 t op,
  let c := mips32 be e in
  byte_files c -> sane s0 ->
  passes_through c fuel text s0 s (Stmt KInstruction words l) s1 s2 ->
  opcode_stmt c s words t0 [t] -> In (lower t0, Target op) manual ->
  not_num (mips_p be) s t 32 false -> no_select t -> no_ops t -> t <> [] -> short_texts c s2 ->
  link c dummy_linker s2 = (s3, Ok tt) ->
  exists a idx, address_of (labels s2) t a /\ 0 <= a < 2 ^ 32 /\ 0 <= idx < 2 ^ 26 /\
    slice (zlen (assembled s)) 4 (assembled s3) = word_bytes be (j_word op idx) /\
    ((4 | a) -> (pc s + 4) / 2 ^ 28 = a / 2 ^ 28 -> (pc s + 4) / 2 ^ 28 * 2 ^ 28 + 4 * idx = a).
Proof.
  intros be e fuel text s0 s words l s1 s2 s3 t0 t op c B SN H OS IM NN NS NO NE NT LK.
  assert (NR : ~ In (lower t0) refused /\ ~ In (lower t0) deviating).
  { assert (X : forallb (fun '(n, f) => match f with RsRtTarget _ | RsTarget _ | Target _ => negb (str_in n refused) && negb (str_in n deviating) | _ => true end) manual = true)
      by (vm_compute; reflexivity).
    rewrite forallb_forall in X. pose proof (X _ IM) as Y. cbv beta iota in Y.
    apply andb_prop in Y. destruct Y as [Y1 Y2]. apply negb_true_iff in Y1, Y2.
    split; intros Z; apply str_in_In in Z; congruence. }
  destruct NR as [NR ND]. pose proof (mips_op_range _ _ IM) as OP. cbn [code] in OP.
  destruct (mips_emitted be e fuel text s0 s words l s1 s2 t0 _ _ H OS IM NR ND) as (w & ds & EN & EM).
  assert (PT : plain t) by (inversion EN; subst; assumption).
  assert (EN' : encodes be s (Target op) [t] (j_word op (0 / 4)) [word_ref t 32 0 25 0 (Some (fun x => Z.shiftr (Z.land x 0x0fffffff) 2))]).
  { apply e_target; [exact PT|apply v_name; exact NN|reflexivity]. }
  destruct (mips_filled be e fuel text s0 s words l s1 s2 s3 t0 _ _ B SN H OS IM NR ND NT LK _ _ _ _ _ _ _ EN')
    as (a' & v & T & R & _ & SL); [unfold j_word; change (0 / 4) with 0; change (2 ^ 26) with 67108864; change (2 ^ 32) with 4294967296; lia|lia|lia|apply j_word_zero|].
  unfold in_range in R. cbn [word_ref ld_relative ld_bits_size] in R. change (0 =? 0) with true in R. cbv iota in R.
  inversion T as [? Q1 Q|? ? Q]; subst; cbn [word_ref ld_relative ld_label] in *; [|contradiction].
  rewrite ParseFacts.label_absolute_relative in Q. destruct (plain_relative _ _ _ _ _ NS NO NE Q) as (a & A & E0).
  subst v. rewrite Z.sub_0_r in *.
  exists a, (a mod 2 ^ 28 / 4). split; [exact A|]. split; [exact R|].
  pose proof (Z.mod_pos_bound a (2 ^ 28) ltac:(cbn; lia)) as MB.
  change (2 ^ 28) with 268435456 in *. change (2 ^ 26) with 67108864.
  assert (IX : 0 <= a mod 268435456 / 4 < 67108864) by (split; [apply Z.div_pos; lia|apply Z.div_lt_upper_bound; lia]).
  split; [exact IX|]. split.
  - rewrite SL. f_equal. change 0x0fffffff with (Z.ones 28). rewrite Z.land_ones by lia. rewrite shiftr_div by lia.
    change (2 ^ 28) with 268435456. change (2 ^ 2) with 4. unfold j_word. change (0 / 4) with 0.
    change (25 - 0 + 1) with 26. change (2 ^ 26) with 67108864. change (2 ^ 0) with 1.
    rewrite (Z.mod_small (a mod 268435456 / 4)) by exact IX. lia.
  - intros [k K] SAME. rewrite SAME.
    assert (D4 : 4 * (a mod 268435456 / 4) = a mod 268435456).
    { symmetry. apply Z.div_exact; [lia|]. rewrite (Z.mod_eq a 268435456) by lia. subst a.
      replace (k * 4 - 268435456 * (k * 4 / 268435456)) with ((k - 67108864 * (k * 4 / 268435456)) * 4) by ring.
      apply Z.mod_mul. lia. }
    rewrite D4. pose proof (Z.div_mod a 268435456 ltac:(lia)). lia.
Qed.
Print Assumptions C50_jump.

Definition c50_text : str := lines [".org 0x80010000"; "top: addiu $t0,$t0,-1"; "bne $t0,$zero,top"; "jal top"]%string.
Example C50_example :
  let ss := stmts_of c50_text in
  let s := fst (exec mips_be 5 (firstn 3 ss) (init_st [])) in
  let x := Stmt KInstruction [#"bne"; #"$t0"; #"$zero"; #"top"] 3 in
  let sj := fst (exec mips_be 5 (firstn 4 ss) (init_st [])) in
  let xj := Stmt KInstruction [#"jal"; #"top"] 4 in
  let s2 := fst (assemble mips_be 5 c50_text (init_st [])) in
  passes_through mips_be 5 c50_text (init_st []) s x (fst (exec mips_be 5 [x] s)) s2 /\
  passes_through mips_be 5 c50_text (init_st []) sj xj (fst (exec mips_be 5 [xj] sj)) s2 /\
  opcode_stmt mips_be s [#"bne"; #"$t0"; #"$zero"; #"top"] #"bne" [#"$t0"; #"$zero"; #"top"] /\
  opcode_stmt mips_be sj [#"jal"; #"top"] #"jal" [#"top"] /\
  In (#"bne", RsRtTarget 5) manual /\ In (#"jal", Target 3) manual /\
  branch_form [#"$t0"; #"$zero"; #"top"] #"top" (RsRtTarget 5) 5 8 0 /\
  not_num (mips_p true) s #"top" 18 true /\ not_num (mips_p true) sj #"top" 32 false /\
  pc s = 0x80010004 /\ no_text s2 /\
  exists s3, link mips_be dummy_linker s2 = (s3, Ok tt) /\
    assembled s3 = [0x25; 8; 0xff; 0xff;  0x15; 0; 0xff; 0xfe;  0x0c; 0; 0x40; 0].
Proof.
  cbv zeta. split; [reached 3%nat|]. split; [reached 4%nat|].
  split; [apply plain_stmt; vm_compute; reflexivity|]. split; [apply plain_stmt; vm_compute; reflexivity|].
  split; [vm_compute; tauto|]. split; [vm_compute; tauto|].
  split; [apply (bf_two _ _ 5 #"$t0" #"$zero" 8 0); [reflexivity|apply reg_iff; vm_compute; reflexivity|apply reg_iff; vm_compute; reflexivity]|].
  split; [vm_compute; reflexivity|]. split; [vm_compute; reflexivity|]. split; [vm_compute; reflexivity|].
  split; [untexted|]. linked.
Qed.

(** Targets that are not a multiple of four away, and jumps to another 256 MB region, are
    accepted without complaint and arrive somewhere else. *)
Theorem C50_unreachable_refuted :
  let go l := let s2 := fst (mips_run_text true l) in link mips_be dummy_linker s2 in
  snd (go ["beq $0,$0,far"; ".db 1"; "far: syscall"]%string) = Ok tt /\
  firstn 4 (assembled (fst (go ["beq $0,$0,far"; ".db 1"; "far: syscall"]%string))) = word_bytes true (i_word 4 0 0 0) /\
  snd (go ["j far"; ".org 0x10000000"; "far: syscall"]%string) = Ok tt /\
  firstn 4 (assembled (fst (go ["j far"; ".org 0x10000000"; "far: syscall"]%string))) = word_bytes true (j_word 2 0).
Proof. cbv zeta. split; [vm_compute; reflexivity|]. split; [vm_compute; reflexivity|]. split; vm_compute; reflexivity. Qed.

(** ** C39: the MIPS processors fit the framework *)

Theorem C39_mips32 : forall be e, fits (mips32 be e) /\ handlers neat (mips32 be e).
Proof. exact mips_fits. Qed.
Print Assumptions C39_mips32.
Print Assumptions C40_deviating_refuted.
Print Assumptions C41_lui_refuted.
Print Assumptions C50_unreachable_refuted.
