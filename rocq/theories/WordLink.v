(** Instruction words in the linked image. *)
From Coq Require Import Lia.
From Verif Require Import Py PyFacts Utils Tokenizer State Assembler SpecUtils SpecExec SpecLink
  UtilsFacts SpecCpu CpuFacts FitFacts SpecPlace PlaceFacts PropsPlace WordFacts.
Local Open Scope Z_scope.

Lemma placed_bits : forall v hi lo u, 0 <= lo <= hi ->
  (forall i, 0 <= i -> Z.testbit v i = fields_bit [((hi, lo), u)] i) ->
  v = (u mod 2 ^ (hi - lo + 1)) * 2 ^ lo.
Proof.
  intros v hi lo u L H. apply Z.bits_inj'. intros i I. rewrite (H i I). unfold fields_bit, in_field.
  cbn [existsb f_lo f_hi f_val fst snd]. rewrite orb_false_r.
  destruct (Z.leb_spec lo i); cbn [andb].
  - rewrite Z.mul_pow2_bits by lia. destruct (Z.leb_spec i hi); cbn [andb].
    + rewrite Z.mod_pow2_bits_low by lia. reflexivity.
    + rewrite Z.mod_pow2_bits_high by lia. reflexivity.
  - rewrite Z.mul_pow2_bits_low by lia. reflexivity.
Qed.

Lemma lor_field : forall w hi lo u, 0 <= lo <= hi -> (w / 2 ^ lo) mod 2 ^ (hi - lo + 1) = 0 ->
  Z.lor w ((u mod 2 ^ (hi - lo + 1)) * 2 ^ lo) = w + (u mod 2 ^ (hi - lo + 1)) * 2 ^ lo.
Proof.
  intros w hi lo u L Z0.
  assert (X : Z.land w ((u mod 2 ^ (hi - lo + 1)) * 2 ^ lo) = 0).
  { apply Z.bits_inj'. intros i I. rewrite Z.land_spec, Z.bits_0. destruct (Z.lt_ge_cases i lo).
    - rewrite (Z.mul_pow2_bits_low (u mod _)) by lia. apply andb_false_r.
    - destruct (Z.lt_ge_cases hi i).
      + rewrite Z.mul_pow2_bits, Z.mod_pow2_bits_high by lia. apply andb_false_r.
      + assert (T : Z.testbit w i = false).
        { replace i with (i - lo + lo) by lia. rewrite <- Z.div_pow2_bits by lia.
          rewrite <- (Z.mod_pow2_bits_low _ (hi - lo + 1)) by lia. rewrite Z0. apply Z.bits_0. }
        rewrite T. reflexivity. }
  rewrite (Z.add_nocarry_lxor w _ X). symmetry. apply Z.lxor_lor. exact X.
Qed.

Lemma bytes_of_value : forall be n l v, Forall is_byte l -> length l = n ->
  read_value be l = v -> l = int_bytes be n v.
Proof.
  intros be n l v F L E.
  assert (G : forall n l v, Forall is_byte l -> length l = n -> le_value l = v -> l = le_bytes n v).
  { clear. intros n l v F. revert n v. induction F as [|x l B F IH]; intros n v L E; cbn [length] in L; subst n; [reflexivity|].
    cbn [le_bytes]. cbn [le_value] in E. unfold is_byte in B. subst v. f_equal.
    - rewrite Z.mul_comm, Z.mod_add by lia. symmetry. apply Z.mod_small. lia.
    - apply IH; auto. rewrite Z.mul_comm, Z.div_add by lia. rewrite (Z.div_small x) by lia. lia. }
  destruct be; cbn [read_value int_bytes] in *.
  - rewrite <- (rev_involutive l). f_equal. apply G; auto; [apply Forall_rev; auto|rewrite rev_length; auto].
  - apply G; auto.
Qed.

Definition filtered (d : labeldata) (t : Z) : Z :=
  match ld_filter d with Some f => f t | None => t end.

Section Word.
  Context (c : cfg) (fuel : nat) (text : str) (s0 s : st) (x : stmt) (s1 s2 s3 : st) (b : bytes) (ds : list labeldata)
    (F : fits c) (N : handlers neat c) (B : byte_files c) (SN : sane s0)
    (H : passes_through c fuel text s0 s x s1 s2) (E : emitted (referring s ds) b s1)
    (SR : Forall sound_ref ds) (PL : placed (zlen b) ds) (NT : short_texts c s2)
    (LK : link c dummy_linker s2 = (s3, Ok tt)).

  (** A part of an instruction with one bit field to be filled in. *)
  Lemma linked_part : forall off n w d hi lo, In d ds -> slice off (Z.of_nat n) b = int_bytes (big_endian (c_p c)) n w ->
    0 <= off -> off + Z.of_nat n <= zlen b ->
    0 <= w < 2 ^ (8 * Z.of_nat n) -> ld_offset d = off -> ld_size d = Z.of_nat n -> ld_bits d = Some (hi, lo) ->
    0 <= lo <= hi -> hi < 8 * Z.of_nat n -> (w / 2 ^ lo) mod 2 ^ (hi - lo + 1) = 0 ->
    exists a t, target (c_p c) (labels s2) d a t /\ aligned d a /\ in_range d t /\
      field_ok ((hi, lo), filtered d t) /\
      slice (zlen (assembled s) + off) (Z.of_nat n) (assembled s3) =
        int_bytes (big_endian (c_p c)) n (w + (filtered d t mod 2 ^ (hi - lo + 1)) * 2 ^ lo).
  Proof.
    intros off n w d hi lo E0 Eb OF LE W O SZ BI L HI Z0.
    destruct (C49_field c fuel text s0 s x s1 s2 s3 b ds d F N B SN H E SR PL NT LK E0) as (v & (a & t & T & A & R & EN) & RD).
    exists a, t. split; [exact T|]. split; [exact A|]. split; [exact R|].
    unfold encoded in EN. rewrite BI in EN. cbv zeta in EN. fold (filtered d t) in EN. destruct EN as [OK BITS].
    split; [exact OK|]. apply placed_bits in BITS; [|exact L].
    rewrite O, SZ in RD. rewrite Eb, read_int_bytes, pow256_bits in RD. rewrite (Z.mod_small w) in RD by exact W.
    assert (V : 0 <= v < 2 ^ (8 * Z.of_nat n)).
    { subst v. pose proof (Z.mod_pos_bound (filtered d t) (2 ^ (hi - lo + 1)) ltac:(apply Z.pow_pos_nonneg; lia)).
      assert (0 < 2 ^ lo) by (apply Z.pow_pos_nonneg; lia).
      assert (2 ^ (hi + 1) = 2 ^ (hi - lo + 1) * 2 ^ lo) by (rewrite <- Z.pow_add_r by lia; f_equal; lia).
      assert (2 ^ (hi + 1) <= 2 ^ (8 * Z.of_nat n)) by (apply Z.pow_le_mono_r; lia). nia. }
    rewrite (Z.mod_small v) in RD by exact V. rewrite BITS, lor_field in RD by assumption.
    apply bytes_of_value; [apply slice_byte|  |exact RD].
    - exact (linked_bytes c fuel text s0 s x s1 s2 s3 F N B SN H LK).
    - pose proof (linked_length c fuel text s0 s x s1 s2 s3 b ds F N B SN H E SR PL LK) as LL.
      assert (0 <= zlen (assembled s)) by apply zlen_nonneg.
      apply Nat2Z.inj. apply slice_length; lia.
  Qed.

  (** An instruction word with one bit field to be filled in. *)
  Lemma linked_word : forall n w d hi lo, ds = [d] -> b = int_bytes (big_endian (c_p c)) n w ->
    0 <= w < 2 ^ (8 * Z.of_nat n) -> ld_offset d = 0 -> ld_size d = Z.of_nat n -> ld_bits d = Some (hi, lo) ->
    0 <= lo <= hi -> hi < 8 * Z.of_nat n -> (w / 2 ^ lo) mod 2 ^ (hi - lo + 1) = 0 ->
    exists a t, target (c_p c) (labels s2) d a t /\ aligned d a /\ in_range d t /\
      field_ok ((hi, lo), filtered d t) /\
      slice (zlen (assembled s)) (Z.of_nat n) (assembled s3) =
        int_bytes (big_endian (c_p c)) n (w + (filtered d t mod 2 ^ (hi - lo + 1)) * 2 ^ lo).
  Proof.
    intros n w d hi lo E0 Eb W O SZ BI L HI Z0.
    assert (Lb : zlen b = Z.of_nat n) by (rewrite Eb; unfold zlen; rewrite int_bytes_length; reflexivity).
    assert (SB : slice 0 (Z.of_nat n) b = b).
    { unfold slice. cbn [Z.to_nat skipn]. apply firstn_all2. unfold zlen in Lb. lia. }
    rewrite <- (Z.add_0_r (zlen (assembled s))).
    apply linked_part; [rewrite E0; left; reflexivity|rewrite SB; exact Eb|lia|lia|assumption..].
  Qed.
End Word.
