(** Values of x86 instructions in the linked image. *)
From Coq Require Import Lia.
From Verif Require Import Py PyFacts Utils Tokenizer State Assembler SpecUtils SpecParse SpecExec SpecLink
  UtilsFacts SpecCpu SpecPlace CpuFacts LabelMono PropsLink PropsPlace X86 SpecX86.
Local Open Scope Z_scope.

Lemma field_little : forall k v, little (Z.of_nat k) v (field_of false k v).
Proof.
  intros k v. unfold field_of. split; [apply Forall_forall; intros x I; apply in_map_iff in I; destruct I as (j & <- & _); apply byte_of_byte|].
  split; [unfold zlen; rewrite map_length, seq_length; reflexivity|]. rewrite le_value_bytes.
  replace (256 ^ Z.of_nat k) with (2 ^ (8 * Z.of_nat k)) by (rewrite Z.pow_mul_r by lia; reflexivity). reflexivity.
Qed.
Lemma little_length : forall n v b, little n v b -> zlen b = n. Proof. intros n v b (_ & L & _). exact L. Qed.
Lemma zlen_field : forall k v, zlen (field_of false k v) = Z.of_nat k. Proof. intros k v. apply (little_length _ v), field_little. Qed.
Lemma zlen_zeros : forall n, zlen (repeat 0 n) = Z.of_nat n. Proof. intros n. unfold zlen. rewrite repeat_length. reflexivity. Qed.

Section Relink.
  Context (s s2 : st) (PC : 0 <= pc s).
  Notation lb := (labels s2).
  Lemma abs_value : forall t size bits off v, field_value x86_p lb (ref t size bits off 0) v ->
    label_absolute x86_p lb t = Ok (Some v) /\ 0 <= v < 2 ^ bits.
  Proof.
    intros t size bits off v (a & u & T & _ & RG & EC). unfold in_range in RG. cbn [ref ld_relative ld_bits_size] in RG.
    change (0 =? 0) with true in RG. unfold SpecLink.encoded in EC. cbn [ref ld_filter ld_bits] in EC. cbv zeta in EC. subst u.
    inversion T as [? Q1 Q|? ? Q]; subst; cbn [ref ld_relative ld_label] in *; [auto|lia].
  Qed.
  Lemma rel_value : forall t size bits off r v, 0 < r -> 1 <= bits -> field_value x86_p lb (ref t size bits off r) v ->
    label_relative x86_p lb t r = Ok (Some v) /\ - 2 ^ (bits - 1) <= v < 2 ^ (bits - 1).
  Proof.
    intros t size bits off r v R0 B1 (a & u & T & _ & RG & EC). unfold in_range in RG. cbn [ref ld_relative ld_bits_size] in RG.
    unfold SpecLink.encoded in EC. cbn [ref ld_filter ld_bits] in EC. cbv zeta in EC. subst u.
    replace (r =? 0) with false in RG by lia.
    inversion T as [? Q _|? ? _ _ Q]; subst; cbn [ref ld_relative ld_label] in *; [lia|]. split; [exact Q|lia].
  Qed.
  Definition fillable (b : bytes) (ds : list labeldata) (P : bytes -> Prop) : Prop :=
    (ds = [] /\ P b) \/
    exists d pre n post, ds = [d] /\ b = pre ++ repeat 0 n ++ post /\ ld_offset d = zlen pre /\ ld_size d = Z.of_nat n /\ sound_ref d /\
      forall v, field_value x86_p lb d v -> P (pre ++ field_of false n v ++ post).
  Lemma fill_pre : forall pre off b ds (P Q : bytes -> Prop), off = zlen pre -> (forall x, P x -> Q (pre ++ x)) ->
    ((ds = [] /\ P b) \/
     exists d n post, ds = [d] /\ b = repeat 0 n ++ post /\ ld_offset d = off /\ ld_size d = Z.of_nat n /\ sound_ref d /\
       forall v, field_value x86_p lb d v -> P (field_of false n v ++ post)) ->
    fillable (pre ++ b) ds Q.
  Proof.
    intros pre off b ds P Q -> PQ [[-> H]|(d & n & post & -> & -> & O & S' & SR & H)]; [left; auto|].
    right. exists d, pre, n, post. repeat split; auto; apply SR.
  Qed.
  Lemma fill_immediate : forall n off t b ds, In n [2; 4] -> immediate x86_p s n off t b ds ->
    (ds = [] /\ immediate2 x86_p s s2 n off t b []) \/
    exists d k post, ds = [d] /\ b = repeat 0 k ++ post /\ ld_offset d = off /\ ld_size d = Z.of_nat k /\ sound_ref d /\
      forall v, field_value x86_p lb d v -> immediate2 x86_p s s2 n off t (field_of false k v ++ post) [].
  Proof.
    intros n off t b ds N [v b' NM L|NN]; [left; split; [reflexivity|]; eapply i2_num; eassumption|].
    assert (1 <= n) by (destruct N as [<- |[<- |[]]]; lia). right. exists (ref t n (8 * n) off 0), (Z.to_nat n), [].
    split; [reflexivity|]. split; [rewrite app_nil_r; reflexivity|]. split; [reflexivity|]. split; [cbn [ref ld_size]; lia|].
    split; [repeat split; cbn [ref ld_size ld_bits_size ld_alignment ld_bits]; try lia; discriminate|].
    intros v FV. apply abs_value in FV. destruct FV as [LA RG]. rewrite app_nil_r. eapply i2_name; [exact NN|exact LA|exact RG|].
    pose proof (field_little (Z.to_nat n) v) as F. rewrite Z2Nat.id in F by lia. exact F.
  Qed.
  Lemma fill_distance : forall n off t b ds, In n [2; 4] -> 0 <= off -> distance x86_p s n off t b ds ->
    (ds = [] /\ distance2 x86_p s s2 n off t b []) \/
    exists d k post, ds = [d] /\ b = repeat 0 k ++ post /\ ld_offset d = off /\ ld_size d = Z.of_nat k /\ sound_ref d /\
      forall v, field_value x86_p lb d v -> distance2 x86_p s s2 n off t (field_of false k v ++ post) [].
  Proof.
    intros n off t b ds N OF [v b' NM L|NN]; [left; split; [reflexivity|]; eapply d2_num; eassumption|].
    right. exists (ref t 2 16 off (pc s + off + n)), 2%nat, (repeat 0 (Z.to_nat (n - 2))).
    assert (0 < pc s + off + n) by (destruct N as [<- |[<- |[]]]; lia).
    split; [reflexivity|]. split; [destruct N as [<- |[<- |[]]]; reflexivity|]. split; [reflexivity|]. split; [reflexivity|].
    split; [repeat split; cbn [ref ld_size ld_bits_size ld_alignment ld_bits]; try lia; discriminate|].
    intros v FV. apply rel_value in FV; [|assumption|lia]. destruct FV as [LR RG]. change (2 ^ (16 - 1)) with 32768 in RG. eapply d2_name; [exact NN|exact LR|exact RG|].
    apply (field_little 2 v).
  Qed.
  Lemma fill_code : forall op f os b ds, encodes x86_p s (immediate x86_p s) (distance x86_p s) op f os b ds ->
    fillable b ds (fun b' => encodes x86_p s (immediate2 x86_p s s2) (distance2 x86_p s s2) op f os b' []).
  Proof.
    intros op f os b ds E. assert (SZ8 : forall size, In size [16; 32] -> In (size / 8) [2; 4]) by (intros size [<- |[<- |[]]]; cbn; auto).
    destruct E as [op size o r md rm d SZ P|op size o r md rm d SZ P|op size m a r md rm d SZ P|op size t b ds SZ IM|op size r t b ds SZ IM|x op r|op size r SZ|op n r M N|op n r M N|op t b ds D|op modes size M];
      try (left; split; [reflexivity|]; econstructor; eassumption).
    - rewrite app_assoc. eapply (fill_pre _ (zlen (size_prefix (x86_bits s) size ++ op)) b ds (fun y => immediate2 x86_p s s2 (size / 8) (zlen (size_prefix (x86_bits s) size ++ op)) t y [])).
      + reflexivity.
      + intros y Y. rewrite <- app_assoc. constructor; assumption.
      + exact (fill_immediate _ _ _ _ _ (SZ8 _ SZ) IM).
    - rewrite app_assoc. eapply (fill_pre _ (zlen (size_prefix (x86_bits s) size) + 1) b ds (fun y => immediate2 x86_p s s2 (size / 8) (zlen (size_prefix (x86_bits s) size) + 1) t y [])).
      + rewrite zlen_app. reflexivity.
      + intros y Y. rewrite <- app_assoc. constructor; assumption.
      + exact (fill_immediate _ _ _ _ _ (SZ8 _ SZ) IM).
    - eapply (fill_pre op (zlen op) b ds (fun y => distance2 x86_p s s2 (if x86_bits s =? 16 then 2 else 4) (zlen op) t y [])).
      + reflexivity.
      + intros y Y. constructor. exact Y.
      + apply fill_distance; [destruct (x86_bits s =? 16); cbn; auto|apply zlen_nonneg|exact D].
  Qed.
  Lemma fill_coded : forall m ops b ds, encoded x86_p s m ops b ds -> fillable b ds (resolved x86_p s s2 m ops).
  Proof.
    intros m ops b ds [m' ops' op f os b' ds' I W E|m' k t op f b' I I2 E].
    - destruct (fill_code _ _ _ _ _ E) as [[-> H]|(d & pre & n & post & -> & -> & O & S' & SR & H)].
      + left. split; [reflexivity|]. eapply n_plain; eassumption.
      + right. exists d, pre, n, post. repeat (split; [first [reflexivity|assumption]|]). intros v FV. eapply n_plain; eauto.
    - left. split; [reflexivity|]. destruct (fill_code _ _ _ _ _ E) as [[_ H]|(d & pre & n & post & X & _)]; [|discriminate X]. eapply n_repeat; eassumption.
  Qed.
End Relink.

Section Link.
  Context (c : cfg) (fuel : nat) (text : str) (s0 s : st) (x : stmt) (s1 s2 s3 : st) (b : bytes) (ds : list labeldata)
    (F : fits c) (N : handlers neat c) (B : byte_files c) (SN : sane s0)
    (H : passes_through c fuel text s0 s x s1 s2) (E : emitted (referring s ds) b s1) (NT : short_texts c s2)
    (LK : link c dummy_linker s2 = (s3, Ok tt)) (PE : c_p c = x86_p).
  Lemma x86_linked : forall m ops, encoded x86_p s m ops b ds -> 0 <= pc s ->
    exists b', resolved x86_p s s2 m ops b' /\ zlen b' = zlen b /\ slice (zlen (assembled s)) (zlen b') (assembled s3) = b'.
  Proof.
    intros m ops EN PC. destruct (fill_coded s s2 PC _ _ _ _ EN) as [[D R]|(d & pre & n & post & D & Eb & O & S' & SR & R)].
    - exists b. split; [exact R|]. split; [reflexivity|]. apply (linked_none c fuel text s0 s x s1 s2 s3 b ds F N B SN H E); auto; rewrite D; [constructor|split; constructor].
    - assert (PL : placed (zlen b) ds).
      { rewrite D, Eb. split; [|constructor; constructor]. constructor; [|constructor]. rewrite O, S', !zlen_app. pose proof (zlen_nonneg pre). pose proof (zlen_nonneg post). rewrite zlen_zeros. lia. }
      destruct (linked_one c fuel text s0 s x s1 s2 s3 b ds F N B SN H E ltac:(rewrite D; constructor; [exact SR|constructor]) PL NT LK pre n post d D Eb O S') as (v & FV & SL).
      rewrite PE in FV, SL. change (big_endian x86_p) with false in SL. exists (pre ++ field_of false n v ++ post). split; [apply R; exact FV|].
      assert (L : zlen (pre ++ field_of false n v ++ post) = zlen b) by (rewrite Eb, !zlen_app, zlen_field, zlen_zeros; lia).
      split; [exact L|]. rewrite L. exact SL.
  Qed.
End Link.
