(** Operands of byte-oriented processors in the linked image. *)
From Coq Require Import Lia.
From Verif Require Import Py PyFacts Utils Tokenizer State Assembler SpecUtils SpecParse SpecExec SpecLink
  UtilsFacts SpecCpu SpecPlace SpecByte CpuFacts LabelMono PropsPlace.
Local Open Scope Z_scope.

Lemma stored_len : forall p s off f t b ds, stored p s off f t b ds ->
  zlen b = match f with SpecByte.Word => 2 | _ => 1 end.
Proof. intros p s off f t b ds []; reflexivity. Qed.
Lemma stored_refs : forall p s off f t b ds n, stored p s off f t b ds -> 0 <= off -> off + zlen b <= n ->
  Forall sound_ref ds /\ placed n ds.
Proof.
  intros p s off f t b ds n H O L. rewrite (stored_len _ _ _ _ _ _ _ H) in L.
  destruct H; (split; [|split]); repeat constructor; cbn; try lia; try discriminate.
Qed.
Lemma laid_out_refs : forall p s pre suf vs b ds, laid_out p s pre suf vs b ds -> Forall sound_ref ds /\ placed (zlen b) ds.
Proof.
  intros p s pre suf vs b ds []; [split; [constructor|split; constructor]|].
  assert (0 <= zlen pre) by apply zlen_nonneg. assert (0 <= zlen suf) by apply zlen_nonneg.
  eapply stored_refs; [eassumption|assumption|]. rewrite !zlen_app. lia.
Qed.
Lemma stored_det : forall p s off f t b1 ds1 b2 ds2, stored p s off f t b1 ds1 -> stored p s off f t b2 ds2 -> b1 = b2 /\ ds1 = ds2.
Proof.
  intros p s off f t b1 ds1 b2 ds2 H1 H2. destruct H1; inversion H2; subst; unfold num, not_num in *;
    try congruence; try (split; reflexivity);
    match goal with A : parse_integer _ _ _ _ _ = Ok (Some ?v), B : parse_integer _ _ _ _ _ = Ok (Some ?w) |- _ =>
      rewrite A in B; injection B as ->; split; reflexivity end.
Qed.
Lemma laid_out_det : forall p s pre suf vs b1 ds1 b2 ds2, laid_out p s pre suf vs b1 ds1 -> laid_out p s pre suf vs b2 ds2 ->
  b1 = b2 /\ ds1 = ds2.
Proof.
  intros p s pre suf vs b1 ds1 b2 ds2 H1 H2. destruct H1; inversion H2; subst; [split; reflexivity|].
  match goal with A : stored _ _ _ _ _ ?x ?y, B : stored _ _ _ _ _ ?x' ?y' |- _ =>
    destruct (stored_det _ _ _ _ _ _ _ _ _ A B) as [-> ->] end. split; reflexivity.
Qed.

Section Link.
  Context (c : cfg) (fuel : nat) (s : st) (x : stmt) (s1 s2 s3 : st) (b : bytes) (ds : list labeldata)
    (F : fits c) (B : byte_files c) (H : sits c fuel s x s1 s2) (E : emitted (referring s ds) b s1) (NT : short_texts c s2)
    (LK : link c dummy_linker s2 = (s3, Ok tt)) (LE : big_endian (c_p c) = false).

  Lemma laid_linked : forall pre suf vs, laid_out (c_p c) s pre suf vs b ds -> 0 <= pc s ->
    exists b', final_layout (c_p c) s s2 pre suf vs b' /\ slice (zlen (assembled s)) (zlen b') (assembled s3) = b'.
  Proof.
    intros pre suf vs LO PC. destruct (laid_out_refs _ _ _ _ _ _ _ LO) as [SR PL].
    assert (NONE : ds = [] -> slice (zlen (assembled s)) (zlen b) (assembled s3) = b)
      by (apply (sits_none c fuel s _ s1 s2 s3 b ds F H E SR PL NT LK)).
    inversion LO as [E1 E2 E3|f t bo ds' ST E1 E2 E3]; subst vs b; [subst ds|subst ds'].
    { exists (pre ++ suf). split; [constructor|]. apply NONE. reflexivity. }
    assert (0 <= zlen pre) as P0 by apply zlen_nonneg.
    assert (ONE : forall n d, ds = [d] -> bo = repeat 0 n -> ld_offset d = zlen pre -> ld_size d = Z.of_nat n ->
      exists v, field_value (c_p c) (labels s2) d v /\
        slice (zlen (assembled s)) (zlen (pre ++ bo ++ suf)) (assembled s3) = pre ++ field_of false n v ++ suf).
    { intros n d D Z O S'. subst bo. rewrite <- LE.
      apply (sits_one c fuel s _ s1 s2 s3 _ _ F B H E SR PL NT LK pre n suf d D eq_refl O S'). }
    assert (NUM : ds = [] -> exists b', final_layout (c_p c) s s2 pre suf [(f, t)] b' /\ slice (zlen (assembled s)) (zlen b') (assembled s3) = b').
    { intros D. exists (pre ++ bo ++ suf). split; [|apply NONE; exact D]. constructor. apply se_number. rewrite D in ST. exact ST. }
    assert (LEN : forall bo', zlen bo' = zlen bo -> zlen (pre ++ bo' ++ suf) = zlen (pre ++ bo ++ suf)).
    { intros bo' L. rewrite !zlen_app. lia. }
    assert (ABS : forall size bits off v, field_value (c_p c) (labels s2) (ref t size bits off 0) v ->
      label_absolute (c_p c) (labels s2) t = Ok (Some v) /\ 0 <= v < 2 ^ bits).
    { intros size bits off v (a & u & T & _ & RG & EC). unfold in_range in RG. cbn [ref ld_relative ld_bits_size] in RG.
      change (0 =? 0) with true in RG. unfold encoded in EC. cbn [ref ld_filter ld_bits] in EC. cbv zeta in EC. subst u.
      inversion T as [? Q1 Q|? ? Q]; subst; cbn [ref ld_relative ld_label] in *; [auto|lia]. }
    assert (F1 : forall v, field_of false 1 v = [v mod 256]).
    { intros v. unfold field_of, byte_of. cbn [seq map]. change (256 ^ Z.of_nat 0) with 1. rewrite Z.div_1_r. reflexivity. }
    destruct ST as [t v NU|t NN|t v NU|t NN|t v NU|t NN|t v NU|t NN]; try (apply NUM; reflexivity); clear NUM.
    - destruct (ONE 1%nat _ eq_refl eq_refl eq_refl eq_refl) as (v & FV & SL). apply ABS in FV. destruct FV as [LA RG].
      change (2 ^ 8) with 256 in RG. exists (pre ++ [v] ++ suf). split; [constructor; apply se_byte; assumption|].
      rewrite (LEN [v] eq_refl), SL, F1, Z.mod_small by exact RG. reflexivity.
    - destruct (ONE 2%nat _ eq_refl eq_refl eq_refl eq_refl) as (v & FV & SL). apply ABS in FV. destruct FV as [LA RG].
      change (2 ^ 16) with 65536 in RG. exists (pre ++ [v mod 256; v / 256] ++ suf). split; [constructor; apply se_word; assumption|].
      rewrite (LEN [v mod 256; v / 256] eq_refl), SL. unfold field_of, byte_of. cbn [seq map].
      change (256 ^ Z.of_nat 0) with 1. change (256 ^ Z.of_nat 1) with 256. rewrite Z.div_1_r.
      rewrite (Z.mod_small (v / 256)); [reflexivity|]. split; [apply Z.div_pos; lia|apply Z.div_lt_upper_bound; lia].
    - destruct (ONE 1%nat _ eq_refl eq_refl eq_refl eq_refl) as (v & (a & u & T & _ & RG & EC) & SL).
      unfold in_range in RG. cbn [ref ld_relative ld_bits_size] in RG. unfold encoded in EC. cbn [ref ld_filter ld_bits] in EC. cbv zeta in EC. subst u.
      replace (pc s + zlen pre + 1 =? 0) with false in RG by lia.
      inversion T as [? Q _|? ? _ _ Q]; subst; cbn [ref ld_relative] in Q; [lia|].
      exists (pre ++ [v mod 256] ++ suf). split; [constructor; apply se_disp; [assumption|exact Q|]|].
      { change (2 ^ (8 - 1)) with 128 in RG. lia. }
      rewrite (LEN [v mod 256] eq_refl), SL, F1. reflexivity.
    - destruct (ONE 1%nat _ eq_refl eq_refl eq_refl eq_refl) as (v & FV & SL). apply ABS in FV. destruct FV as [LA RG].
      change (2 ^ 8) with 256 in RG. exists (pre ++ [v] ++ suf). split; [constructor; apply se_index; assumption|].
      rewrite (LEN [v] eq_refl), SL, F1, Z.mod_small by exact RG. reflexivity.
  Qed.
End Link.

(** Linking keeps the length. *)
Lemma final_length : forall p s s2 pre suf vs b ds b', laid_out p s pre suf vs b ds -> final_layout p s s2 pre suf vs b' ->
  zlen b' = zlen b.
Proof.
  intros p s s2 pre suf vs b ds b' L F. inversion L as [|f t x ds' ST]; subst; inversion F as [|f' t' y SE]; subst; [reflexivity|].
  rewrite !zlen_app. f_equal. f_equal. inversion SE as [? ? ? ST'| | | |]; subst; [|inversion ST; reflexivity..].
  inversion ST; subst; inversion ST'; reflexivity.
Qed.
