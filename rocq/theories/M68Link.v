(** The parts of a 68000 instruction in the linked image. *)
From Coq Require Import Lia.
From Verif Require Import Py PyFacts Utils Tokenizer State Assembler Instr Mc68000.
From Verif Require Import SpecUtils SpecExec SpecLink SpecCpu SpecPlace UtilsFacts CpuFacts FitFacts PlaceFacts PropsPlace WordFacts WordLink
  SpecM68 M68Lex M68Facts M68Ops.
Local Open Scope Z_scope.

(** ** Where the values of an instruction lie *)

Definition fit_slot (off : Z) (sl : slot) : Prop :=
  (sl_bytes sl = 2%nat \/ sl_bytes sl = 4%nat) /\ 1 <= sl_bits sl <= 8 * Z.of_nat (sl_bytes sl) /\ 1 <= sl_align sl /\
  match sl_word sl with Some w => sl_bits sl = 8 /\ 0 <= w < 65536 /\ (256 | w) /\ sl_bytes sl = 2%nat | None => True end /\
  match sl_from sl with Some k => 0 < off + k /\ (sl_word sl = None -> sl_bits sl = 8 * Z.of_nat (sl_bytes sl)) | None => True end.
Fixpoint fit_items (off : Z) (l : list item) : Prop :=
  match l with
  | [] => True
  | i :: l => match i with Fixed _ => True | Val sl _ => fit_slot off sl end /\ fit_items (off + item_size i) l
  end.
Lemma fit_app : forall l1 l2 off, fit_items off l1 -> (forall o, off <= o -> fit_items o l2) -> fit_items off (l1 ++ l2).
Proof.
  induction l1 as [|i l1 IH]; intros l2 off H1 H2; cbn [app fit_items] in *; [apply H2; lia|]. destruct H1 as [A B].
  split; [exact A|]. apply IH; [exact B|]. intros o O. apply H2. destruct i; cbn [item_size] in O; lia.
Qed.
Lemma index_word : forall i w, index i w -> 0 <= w < 65536 /\ (256 | w).
Proof.
  assert (X : forall r n k, xreg r n k -> 0 <= n < 8 /\ 0 <= k < 2).
  { intros r n k [[D ->]|[D ->]]; (split; [|lia]); unfold dreg, areg in D; cbn [d_names a_names In] in D;
      repeat (destruct D as [D|D]; [injection D as _ <-; lia|]); destruct D. }
  intros i w H. destruct H as [r n k suf R _|r n k suf R _|r n k R _]; apply X in R.
  - split; [lia|]. exists (k * 128 + n * 16). lia.
  - split; [lia|]. exists (k * 128 + n * 16 + 8). lia.
  - split; [lia|]. exists (k * 128 + n * 16). lia.
Qed.
Ltac fit := cbn [fit_items]; repeat split; cbn; try lia; try discriminate; auto.
Lemma imm_fit : forall sz off, fit_slot off (imm sz).
Proof. intros sz off. unfold imm. destruct (sz =? 1); [fit|]. destruct (sz =? 2); fit. Qed.
Lemma ea_fit : forall strict sz ts m r items off, ea strict sz ts m r items -> 2 <= off -> fit_items off items.
Proof.
  intros strict sz ts m r items off E O. destruct E; try (match goal with I : index _ _ |- _ => apply index_word in I; destruct I as [I1 I2] end);
    try (fit; fail). split; [apply imm_fit|exact I].
Qed.
Lemma form_fit : forall strict t0 ops items, form strict t0 ops items -> fit_items 0 items.
Proof.
  intros strict t0 ops items F. destruct F; cbn [fit_items item_size]; try (split; [exact I|]).
  all: try (eapply ea_fit; [eassumption|lia]).
  - exact I.
  - exact I.
  - apply fit_app; [eapply ea_fit; [eassumption|lia]|]. intros o O. eapply ea_fit; [eassumption|lia].
  - split; [apply imm_fit|]. eapply ea_fit; [eassumption|]. lia.
  - split; [apply (imm_fit 1)|exact I].
  - split; [apply (imm_fit 2)|exact I].
  - split; [|exact I]. assert (C : 0 <= c < 16) by (repeat (destruct H as [H|H]; [injection H as _ <-; lia|]); destruct H).
    unfold branch8, fit_slot. cbn [sl_bytes sl_bits sl_align sl_word sl_from].
    split; [left; reflexivity|]. split; [lia|]. split; [lia|]. split; [|split; [lia|discriminate]].
    split; [reflexivity|]. split; [lia|]. split; [exists (0x60 + c); lia|reflexivity].
  - fit.
  - fit.
  - fit.
Qed.

Lemma stored_size : forall s off i b ds, stored_item mc_p s off i b ds -> zlen b = item_size i.
Proof. intros s off i b ds []; rewrite msb_zlen; reflexivity. Qed.
Lemma stored_refs : forall s items off b ds, stored_items mc_p s off items b ds -> fit_items off items -> 0 <= off ->
  Forall sound_ref ds /\ Forall (fun d => off <= ld_offset d /\ ld_offset d + ld_size d <= off + zlen b) ds /\
  ForallOrdPairs (fun d e => ld_offset d + ld_size d <= ld_offset e \/ ld_offset e + ld_size e <= ld_offset d) ds.
Proof.
  intros s items off b ds H. induction H as [off|off i is b bs ds es I H IH]; intros F O; [repeat split; constructor|].
  cbn [fit_items] in F. destruct F as [F1 F2]. rewrite <- (stored_size _ _ _ _ _ I) in F2.
  assert (0 <= zlen b) by apply zlen_nonneg. destruct (IH F2 ltac:(lia)) as (A1 & A2 & A3). rewrite zlen_app.
  assert (A2' : Forall (fun d => off + zlen b <= ld_offset d /\ ld_offset d + ld_size d <= off + (zlen b + zlen bs)) es).
  { eapply Forall_impl; [|exact A2]. cbn beta. intros d D. lia. }
  destruct I as [w|sl t v NU|sl t NN]; cbn [app].
  1, 2: split; [exact A1|]; split; [|exact A3]; eapply Forall_impl; [|exact A2']; cbn beta; intros d D; lia.
  destruct F1 as (S1 & S2 & S3 & S4 & S5). rewrite msb_zlen in *. split; [|split].
  - constructor; [|exact A1]. repeat split; cbn; try lia. intros x X. destruct (sl_word sl); [|discriminate]. injection X as <-. cbn. lia.
  - constructor; [cbn; pose proof (zlen_nonneg bs); lia|]. eapply Forall_impl; [|exact A2']. cbn beta. intros d D. lia.
  - constructor; [|exact A3]. eapply Forall_impl; [|exact A2']. cbn beta. intros d D. left. cbn. lia.
Qed.

Lemma slice_split : forall A (l : list A) a n m, 0 <= a -> 0 <= n -> 0 <= m -> slice a (n + m) l = slice a n l ++ slice (a + n) m l.
Proof.
  intros A l a n m A0 N0 M0. unfold slice. rewrite !Z2Nat.inj_add by lia.
  generalize (Z.to_nat a) as x. generalize (Z.to_nat n) as y. generalize (Z.to_nat m) as z. clear. intros z y x. revert l.
  induction x as [|x IH]; intros l.
  - cbn [skipn Nat.add]. revert l. induction y as [|y IH]; intros l; [reflexivity|]. destruct l as [|v l]; cbn [firstn skipn Nat.add app]; [rewrite firstn_nil; reflexivity|].
    rewrite IH. reflexivity.
  - destruct l as [|v l]; cbn [skipn Nat.add]; [rewrite !firstn_nil; reflexivity|apply IH].
Qed.

Section Link.
  Context (c : cfg) (fuel : nat) (text : str) (s0 s : st) (x : stmt) (s1 s2 s3 : st) (b : bytes) (ds : list labeldata)
    (F : fits c) (N : handlers neat c) (B : byte_files c) (SN : sane s0)
    (H : passes_through c fuel text s0 s x s1 s2) (E : emitted (referring s ds) b s1)
    (SR : Forall sound_ref ds) (PL : placed (zlen b) ds) (NT : short_texts c s2)
    (LK : link c dummy_linker s2 = (s3, Ok tt)) (PP : c_p c = mc_p) (PC : 0 <= pc s).

  Let A := zlen (assembled s).
  Lemma long_enough : 0 <= A /\ A + zlen b <= zlen (assembled s3).
  Proof. split; [apply zlen_nonneg|]. exact (linked_length c fuel text s0 s x s1 s2 s3 b ds F N B SN H E SR PL LK). Qed.

  (** Bytes without a reference. *)
  Lemma linked_same : forall off n, 0 <= off -> 0 <= n -> off + n <= zlen b ->
    (forall d, In d ds -> ld_offset d + ld_size d <= off \/ off + n <= ld_offset d) -> slice (A + off) n (assembled s3) = slice off n b.
  Proof.
    intros off n O N0 L D. destruct long_enough as [A0 LL].
    assert (L1 : zlen (slice (A + off) n (assembled s3)) = n) by (apply slice_length; lia).
    assert (L2 : zlen (slice off n b) = n) by (apply slice_length; lia).
    unfold zlen in L1, L2. apply nth_error_eq; [lia|]. intros i I.
    rewrite !nth_slice by lia.
    pose proof (linked_rest c fuel text s0 s x s1 s2 s3 b ds F N B SN H E SR PL NT LK (Z.to_nat off + i)) as R.
    rewrite nth_slice in R; [|exact A0|unfold zlen in *; lia]. fold A in R.
    replace (Z.to_nat (A + off) + i)%nat with (Z.to_nat A + (Z.to_nat off + i))%nat by lia. apply R; [unfold zlen in *; lia|].
    intros d J C. unfold covers in C. cbn [fst snd] in C. destruct (D d J); lia.
  Qed.
  (** A whole field of zero bytes. *)
  Lemma linked_whole : forall off n d, In d ds -> slice off (Z.of_nat n) b = msb n 0 -> 0 <= off -> off + Z.of_nat n <= zlen b ->
    ld_offset d = off -> ld_size d = Z.of_nat n -> ld_bits d = None -> ld_filter d = None ->
    exists a t, target mc_p (labels s2) d a t /\ aligned d a /\ in_range d t /\
      slice (A + off) (Z.of_nat n) (assembled s3) = msb n t.
  Proof.
    intros off n d I Z0 O L E1 E2 E3 E4. destruct long_enough as [A0 LL].
    destruct (C49_field c fuel text s0 s x s1 s2 s3 b ds d F N B SN H E SR PL NT LK I) as (v & (a & t & T & AL & R & EN) & RD).
    rewrite PP in *. exists a, t. split; [exact T|]. split; [exact AL|]. split; [exact R|].
    unfold encoded in EN. rewrite E3, E4 in EN. cbv zeta in EN. subst v. rewrite E1, E2, Z0 in RD.
    change (big_endian mc_p) with true in RD. rewrite <- msb_int, read_int_bytes, Z.mod_0_l, Z.lor_0_l in RD by (apply Z.pow_nonzero; lia).
    fold A in RD. apply (bytes_of_value true n) in RD.
    - rewrite RD, msb_int. apply msb_mod.
    - apply slice_byte. exact (linked_bytes c fuel text s0 s x s1 s2 s3 F N B SN H LK).
    - apply Nat2Z.inj. apply slice_length; lia.
  Qed.

  Lemma linked_item : forall i off bi es, stored_item mc_p s off i bi es -> match i with Fixed _ => True | Val sl _ => fit_slot off sl end ->
    0 <= off -> off + zlen bi <= zlen b -> slice off (zlen bi) b = bi -> incl es ds ->
    (es = [] -> forall d, In d ds -> ld_offset d + ld_size d <= off \/ off + zlen bi <= ld_offset d) ->
    exists bi', settled_item mc_p s s2 off i bi' /\ zlen bi' = zlen bi /\ slice (A + off) (zlen bi) (assembled s3) = bi'.
  Proof.
    intros i off bi es ST FI O L SB IN SEP. destruct ST as [w|sl t v NU|sl t NN].
    - exists (msb 2 w). split; [constructor|]. split; [reflexivity|]. rewrite linked_same; [exact SB|lia|apply zlen_nonneg|exact L|exact (SEP eq_refl)].
    - eexists. split; [eapply se_number; exact NU|]. split; [reflexivity|].
      rewrite linked_same; [exact SB|lia|apply zlen_nonneg|exact L|exact (SEP eq_refl)].
    - specialize (IN _ (or_introl eq_refl)). destruct FI as (S1 & S2 & S3 & S4 & S5). rewrite msb_zlen in *.
      set (d := LabelData t (Z.of_nat (sl_bytes sl)) (sl_bits sl) (base_of s off sl) off (sl_align sl)
        (match sl_word sl with Some _ => Some (sl_bits sl - 1, 0) | None => None end) None None) in *.
      assert (FIN : forall a u, target mc_p (labels s2) d a u -> aligned d a -> in_range d u ->
        slice (A + off) (Z.of_nat (sl_bytes sl)) (assembled s3) = msb (sl_bytes sl) (rest_of sl + u mod 2 ^ sl_bits sl) ->
        exists bi', settled_item mc_p s s2 off (Val sl t) bi' /\ zlen bi' = Z.of_nat (sl_bytes sl) /\
          slice (A + off) (Z.of_nat (sl_bytes sl)) (assembled s3) = bi').
      { intros a u T AL R SL. eexists. split; [|split; [|exact SL]]; [|apply msb_zlen]. unfold in_range in R.
        change (ld_relative d) with (base_of s off sl) in R. change (ld_bits_size d) with (sl_bits sl) in R.
        unfold base_of in R. destruct (sl_from sl) as [k|] eqn:FR.
        - replace (pc s + off + k =? 0) with false in R by lia. inversion T as [a' Q1 Q2|a' v' Q1 Q2 Q3]; subst a'; [|subst v'].
          { unfold d, base_of in Q1. rewrite FR in Q1. cbn [ld_relative] in Q1. lia. }
          unfold d, base_of in Q3. rewrite FR in Q3. cbn [ld_relative ld_label] in Q3.
          eapply se_distance; [exact NN|exact FR|exact Q2|exact AL|exact Q3|exact R].
        - change (0 =? 0) with true in R. rewrite Z.mod_small by exact R.
          inversion T as [a' Q1 Q2|a' v' Q1 Q2 Q3]; [subst a'|subst a' v'].
          + subst u. eapply se_address; [exact NN|exact FR|exact Q2|exact AL|exact R].
          + unfold d, base_of in Q1. rewrite FR in Q1. cbn [ld_relative] in Q1. lia. }
      destruct (sl_word sl) as [w|] eqn:SW.
      + destruct S4 as (W1 & W2 & W3 & W4).
        destruct (linked_part c fuel text s0 s x s1 s2 s3 b ds F N B SN H E SR PL NT LK off (sl_bytes sl) w d 7 0) as (a & u & T & AL & R & _ & SL);
          try assumption; try reflexivity; try lia.
        * rewrite SB, PP. change (big_endian mc_p) with true. rewrite msb_int. unfold rest_of. rewrite SW. reflexivity.
        * rewrite W4. change (2 ^ (8 * Z.of_nat 2)) with 65536. exact W2.
        * unfold d. cbn [ld_bits]. rewrite W1. reflexivity.
        * change (2 ^ 0) with 1. rewrite Z.div_1_r. change (2 ^ (7 - 0 + 1)) with 256. destruct W3 as [q ->]. apply Z.mod_mul. lia.
        * rewrite PP in *. apply (FIN a u T AL R). fold A in SL. rewrite SL. change (big_endian mc_p) with true. rewrite msb_int. unfold filtered, d. cbn [ld_filter].
          change (2 ^ 0) with 1. change (7 - 0 + 1) with 8. rewrite Z.mul_1_r, W1. unfold rest_of. rewrite SW. reflexivity.
      + destruct (linked_whole off (sl_bytes sl) d IN) as (a & u & T & AL & R & SL); try reflexivity; try lia.
        * rewrite SB. unfold rest_of. rewrite SW. reflexivity.
        * apply (FIN a u T AL R). rewrite SL. unfold rest_of. rewrite SW. cbn [Z.add].
          unfold in_range in R. change (ld_relative d) with (base_of s off sl) in R. change (ld_bits_size d) with (sl_bits sl) in R.
          destruct (sl_from sl) as [k|] eqn:FR.
          -- destruct S5 as [_ S5]. rewrite (S5 eq_refl). symmetry. apply msb_mod.
          -- unfold base_of in R. rewrite FR in R. change (0 =? 0) with true in R. rewrite Z.mod_small by exact R. reflexivity.
  Qed.
  Lemma linked_items : forall items off bs es, stored_items mc_p s off items bs es -> fit_items off items ->
    forall pre es0, b = pre ++ bs -> zlen pre = off -> ds = es0 ++ es -> Forall (fun d => ld_offset d + ld_size d <= off) es0 ->
    exists bs', settled_items mc_p s s2 off items bs' /\ zlen bs' = zlen bs /\ slice (A + off) (zlen bs) (assembled s3) = bs'.
  Proof.
    intros items off bs es ST. induction ST as [off|off i is bi bs di es I ST IH]; intros FI pre es0 EB EO ED BE.
    - exists []. split; [constructor|]. split; reflexivity.
    - cbn [fit_items] in FI. destruct FI as [F1 F2]. rewrite <- (stored_size _ _ _ _ _ I) in F2.
      assert (O : 0 <= off) by (rewrite <- EO; apply zlen_nonneg).
      assert (ZI : 0 <= zlen bi) by apply zlen_nonneg. assert (ZB : 0 <= zlen bs) by apply zlen_nonneg.
      assert (LB : zlen b = off + zlen bi + zlen bs) by (rewrite EB, !zlen_app; lia).
      destruct (stored_refs _ _ _ _ _ ST F2 ltac:(lia)) as (_ & LATER & _).
      destruct (stored_refs s [i] off (bi ++ []) (di ++ [])) as (_ & HERE & _); [econstructor; [exact I|constructor]|split; [exact F1|exact Logic.I]|exact O|].
      rewrite !app_nil_r in HERE.
      destruct (linked_item i off bi di I F1 O ltac:(lia)) as (bi' & S1 & L1 & SL1).
      + rewrite EB. replace off with (zlen pre + 0) by lia. rewrite slice_suffix by lia. rewrite slice_prefix by lia.
        unfold slice. cbn [Z.to_nat skipn]. apply firstn_all2. unfold zlen. lia.
      + rewrite ED. intros d D. apply in_or_app. right. apply in_or_app. left. exact D.
      + intros -> d D. rewrite ED in D. cbn [app] in D. apply in_app_or in D. rewrite Forall_forall in BE, LATER.
        destruct D as [D|D]; [left; exact (BE _ D)|right]. apply LATER in D. lia.
      + destruct (IH F2 (pre ++ bi) (es0 ++ di)) as (bs' & S2 & L2 & SL2).
        * rewrite <- app_assoc. exact EB.
        * rewrite zlen_app. lia.
        * rewrite <- app_assoc. exact ED.
        * apply Forall_app. split; [eapply Forall_impl; [|exact BE]; cbn beta; intros d D; lia|].
          eapply Forall_impl; [|exact HERE]. cbn beta. intros d D. lia.
        * exists (bi' ++ bs'). split; [econstructor; [exact S1|rewrite L1; exact S2]|]. rewrite !zlen_app. split; [lia|].
          destruct long_enough as [A0 _]. rewrite slice_split by lia. rewrite SL1. rewrite <- Z.add_assoc, SL2. reflexivity.
  Qed.
End Link.
