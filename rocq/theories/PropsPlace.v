(** Property C49: references never share bytes, so linking fills in each of them
    without disturbing anything else. *)
From Coq Require Import Lia.
From Verif Require Import Py PyFacts Utils Tokenizer State Assembler SpecUtils SpecExec SpecLink
  UtilsFacts Events ExecFacts LinkFacts SpecCpu CpuFacts FitFacts SpecPlace PlaceFacts PropsExec PropsLink PropsRuns
  Mos6502 FitMos Demo PropsMos DigitFacts.
Local Open Scope Z_scope.

Lemma ref_ok_hooks : forall refs, Forall ref_ok refs -> byte_hooks refs.
Proof.
  intros refs F a d h addr v out I H O. rewrite Forall_forall in F. apply F in I.
  destruct I as (_ & _ & _ & [X|[w X]]); cbn [snd] in X; rewrite X in H; [discriminate|]. injection H as <-.
  apply to_str_hook_byte. exact O.
Qed.

Lemma fits_bytes_kept : forall c, fits c -> byte_files c -> forall fuel text s,
  byte_state s -> byte_state (fst (assemble c fuel text s)).
Proof.
  intros c F B fuel text s.
  apply (bytes_history c (fun _ => False)); [apply fits_bytes; auto| | |intros ? []|apply h_assemble, h_start].
  - apply fits_keep; auto.
    + intros s1 ds S [X Y]. split; [rewrite referring_same; exact X|apply referring_hooks; auto].
    + intros s1 bits b FB [X Y]. split; [apply Forall_app; auto|exact Y].
  - destruct F as (_ & _ & (N1 & N2) & _). intros m s1 I. rewrite N1, N2 in I. destruct I.
Qed.

Lemma fits_custom : forall c, fits c -> forall k f tokens s,
  dget str_eqb (c_directives c) k = Some (D_custom f) -> keeps (f tokens) s.
Proof.
  intros c (_ & _ & _ & B) k f tokens s D s' a E. destruct (B _ _ D tokens s) as (bits & b & r & _ & X).
  rewrite (X s) in E by (repeat split). injection E as <- _. eapply good_append; reflexivity.
Qed.

(** A successful assembly leaves every reference with bytes of its own inside the output;
    output, references and labels so far are kept. *)
Theorem C49_tidy : forall c fuel text s s', fits c -> handlers neat c -> byte_files c -> sane s ->
  assemble c fuel text s = (s', Ok tt) ->
  sane s' /\ extends (assembled s) (assembled s') /\ later_refs s s' /\ extends (labels s) (labels s').
Proof.
  intros c fuel text s s' F N B (T & R & Y) H.
  destruct (keeps_assemble c N (fits_custom c F) fuel text s s' tt H T) as (T' & A & L & X & R').
  split; [|auto]. split; [exact T'|]. split; [auto|].
  pose proof (fits_bytes_kept c F B fuel text s) as K. rewrite H in K. cbn [fst] in K.
  apply K. split; auto. apply ref_ok_hooks; auto.
Qed.
Print Assumptions C49_tidy.

Lemma sane_init : forall defs, sane (init_st defs).
Proof. intros defs. split; [|split; constructor]. exists []. repeat split; constructor. Qed.

Lemma through_good : forall c fuel text s0 s x s1 s2, fits c -> handlers neat c ->
  passes_through c fuel text s0 s x s1 s2 -> good s0 s /\ good s s1 /\ good s1 s2.
Proof.
  intros c fuel text s0 s x s1 s2 F N (ss1 & ss2 & T & E1 & E2 & E3).
  pose proof (fits_custom c F) as CU. split; [eapply keeps_exec; eauto|]. split; [eapply keeps_exec; eauto|].
  rewrite (assemble_exec _ _ _ _ _ T) in E3. unfold exec in E3 at 1. unfold bind at 1 in E3.
  rewrite iter_app in E3. unfold bind at 1 in E3. fold (exec c fuel ss1) in E3. rewrite E1 in E3.
  change (x :: ss2) with ([x] ++ ss2) in E3. rewrite iter_app in E3. unfold bind at 1 in E3.
  fold (exec c fuel [x]) in E3. rewrite E2 in E3. fold (exec c fuel ss2) in E3.
  destruct (exec c fuel ss2 s1) as [s' [[]|]] eqn:E4; [|discriminate].
  eapply good_trans; [eapply keeps_exec; eauto|]. eapply keeps_tail; eauto.
Qed.

(** The number of digits is a property of the hook. *)
Lemma format_zero : forall w, map ord (format_0d w 0) = repeat 48 (Nat.max w 1).
Proof.
  intros w. unfold format_0d. change (0 <? 0) with false. cbv iota zeta. change (nat_digits 10 0) with ["0"%char].
  change (length ["0"%char]) with 1%nat. rewrite map_app. change (map ord ["0"%char]) with (repeat 48 1).
  replace (map ord (repeat "0"%char (w - 1))) with (repeat 48 (w - 1)).
  - rewrite <- repeat_app. f_equal. lia.
  - generalize (w - 1)%nat as k. induction k; [reflexivity|]. cbn [repeat map]. rewrite IHk. reflexivity.
Qed.
Lemma write_zeros : forall n k pre, write_bytes (zlen pre) (repeat 48 n) (pre ++ repeat 0 (n + k)) = (pre ++ repeat 48 n ++ repeat 0 k, None).
Proof.
  induction n as [|n IH]; intros k pre; [reflexivity|]. cbn [repeat plus write_bytes].
  assert (E : set_index (pre ++ 0 :: repeat 0 (n + k)) (zlen pre) 48 = Ok ((pre ++ [48]) ++ repeat 0 (n + k))).
  { unfold set_index. pose proof (zlen_nonneg pre) as Z0. rewrite zlen_app, zlen_cons. pose proof (zlen_nonneg (repeat 0 (n + k))) as Z1.
    replace (zlen pre <? 0) with false by (symmetry; apply Z.ltb_ge; lia).
    replace (zlen pre + (1 + zlen (repeat 0 (n + k))) <=? zlen pre) with false by (symmetry; apply Z.leb_gt; lia). cbn [orb].
    unfold zlen. rewrite Nat2Z.id, <- app_assoc. f_equal. clear. induction pre; [reflexivity|]. cbn [app length replace_nth]. f_equal. exact IHpre. }
  rewrite E. replace (zlen pre + 1) with (zlen (pre ++ [48])) by (rewrite zlen_app; reflexivity). rewrite IH, <- app_assoc. reflexivity.
Qed.
Lemma hook_width : forall w w', to_str_hook w = to_str_hook w' -> Nat.max w 1 = Nat.max w' 1.
Proof.
  intros w w' E. set (n := Nat.max w 1). set (n' := Nat.max w' 1).
  assert (X : fst (to_str_hook w 0 0 (repeat 0 (n + n'))) = fst (to_str_hook w' 0 0 (repeat 0 (n + n')))) by (rewrite E; reflexivity).
  unfold to_str_hook in X. rewrite !format_zero in X. fold n n' in X.
  pose proof (write_zeros n n' []) as Y. cbn [app] in Y. change (zlen (@nil Z)) with 0 in Y. rewrite Y in X.
  pose proof (write_zeros n' n []) as Y'. cbn [app] in Y'. change (zlen (@nil Z)) with 0 in Y'. rewrite (Nat.add_comm n n'), Y' in X.
  cbn [fst] in X. clearbody n n'. clear - X. revert n' X. induction n as [|n IH]; intros [|n'] X; try reflexivity; cbn [repeat app] in X.
  - discriminate X.
  - discriminate X.
  - f_equal. apply IH. injection X as X. 
    assert (G : forall m k (l : list Z), repeat 48 m ++ repeat 0 (S k) = l -> l = repeat 48 m ++ repeat 0 k ++ [0]).
    { intros m k l <-. f_equal. clear. induction k; [reflexivity|]. cbn [repeat app]. f_equal. exact IHk. }
    pose proof (G n n' _ eq_refl) as G1. pose proof (G n' n _ eq_refl) as G2. cbn [repeat] in G1, G2. rewrite G1, G2, !app_assoc in X.
    apply app_inj_tail in X. apply X.
Qed.

(** Without texts the condition on them holds. *)
Lemma short_of : forall c s, no_text s -> short_texts c s.
Proof.
  intros c s NT a d w abs v I HK _. unfold no_text in NT. rewrite Forall_forall in NT. apply NT in I. cbn [snd] in I. congruence.
Qed.

(** The bytes a reference changes are its own. *)
Lemma changes_own : forall c s r iv ch i k, short_texts c s -> In r (labels_addresses s) ->
  occupies r iv -> fst iv < snd iv -> ref_changes (c_p c) (labels s) r ch -> In (i, k) ch -> fst iv <= i < snd iv.
Proof.
  intros c s r iv ch i k ST I [O1 O2] NE R IC. destruct R as [a d v HK FV|a d w abs v HK T]; cbn [fst snd] in *.
  - apply field_changes_In in IC. inversion O2 as [X Y|w X Y]; [lia|congruence].
  - apply text_changes_In in IC. pose proof (ST _ _ _ _ _ I HK T) as V.
    inversion O2 as [X Y|w' X Y]; [congruence|]. rewrite HK in X. injection X as X. apply hook_width in X.
    assert (W' : (1 <= w')%nat) by lia. destruct w as [|w].
    + assert (v = 0) by (cbn in V; lia). subst v. change (zlen (format_0d 0 0)) with 1 in IC. lia.
    + destruct (format_0d_spec (S w) v ltac:(lia) V) as (L & _). unfold zlen in IC. lia.
Qed.

Lemma changes_after : forall p lbls r ch i k, ref_changes p lbls r ch -> In (i, k) ch -> fst r <= i.
Proof.
  intros p lbls r ch i k R IC. destruct R as [a d v HK FV|a d w abs v HK T]; cbn [fst].
  - apply field_changes_In in IC. lia.
  - apply text_changes_In in IC. lia.
Qed.

(** tidy gives apartness of one reference from all others. *)
Lemma tidy_alone : forall c s a d n, tidy s -> short_texts c s -> In (a, d) (labels_addresses s) -> takes d n -> exists l1 l2,
  labels_addresses s = l1 ++ (a, d) :: l2 /\
  forall r ch i k, In r (l1 ++ l2) -> ref_changes (c_p c) (labels s) r ch -> In (i, k) ch -> ~ a <= i < a + n.
Proof.
  intros c s a d n (ivs & F & NE & D) ST I TK.
  assert (P : exists l1 l2, labels_addresses s = l1 ++ (a, d) :: l2 /\ forall r, In r (l1 ++ l2) -> exists iv iv',
    occupies r iv /\ fst iv < snd iv /\ occupies (a, d) iv' /\ fst iv' < snd iv' /\ apart iv iv').
  { clear ST TK. revert I D NE. induction F as [|r iv l ivs O F IH]; intros I D NE; [contradiction|].
    inversion D as [|? ? D1 D2]; subst. inversion NE as [|? ? NE1 NE2]; subst.
    assert (AP : forall r', In r' l -> exists iv', occupies r' iv' /\ fst iv' < snd iv' /\ apart iv iv').
    { intros r' I'. clear IH I. clear - F I' D1 NE2. induction F as [|r2 iv2 l ivs O2 F IH]; [contradiction|].
      inversion D1; inversion NE2; subst. destruct I' as [->|I']; [exists iv2; repeat split; auto; lia || apply O2|auto]. }
    destruct I as [->|I].
    - exists [], l. split; [reflexivity|]. intros r' I'. destruct (AP r' I') as (iv' & A1 & A2 & A3). exists iv', iv.
      repeat split; auto; try apply A1; try apply O; try lia. unfold apart in *. tauto.
    - destruct (IH I D2 NE2) as (l1 & l2 & E & K). exists (r :: l1), l2. split; [cbn [app]; f_equal; exact E|].
      intros r' [<-|I']; [|auto]. destruct (AP (a, d) I) as (iv' & A1 & A2 & A3). exists iv, iv'.
      repeat split; auto; try apply A1; try apply O; lia. }
  destruct P as (l1 & l2 & E & K). exists l1, l2. split; [exact E|]. intros r ch i k J R IC IN.
  destruct (K r J) as (iv & iv' & O & N1 & O' & N1' & AP).
  assert (Ir : In r (labels_addresses s)) by (rewrite E; apply in_app_or in J; apply in_or_app; cbn [In]; tauto).
  pose proof (changes_own c s r iv ch i k ST Ir O N1 R IC) as C.
  destruct O' as [O1 O2]. cbn [fst snd] in O1, O2.
  assert (n <= snd iv' - fst iv').
  { inversion TK as [X Y|w X Y]; inversion O2 as [X' Y'|w' X' Y']; try congruence; [lia|]. rewrite X in X'. injection X' as X'. apply hook_width in X'.
    lia. }
  unfold apart in AP. lia.
Qed.

Lemma slice_prefix : forall A (l1 l2 : list A) a n, 0 <= a -> 0 <= n -> a + n <= zlen l1 ->
  slice a n (l1 ++ l2) = slice a n l1.
Proof.
  intros A l1 l2 a n A0 N0 L. unfold slice, zlen in *. rewrite skipn_app, firstn_app.
  replace (Z.to_nat n - length (skipn (Z.to_nat a) l1))%nat with 0%nat by (rewrite skipn_length; lia).
  rewrite firstn_O, app_nil_r. reflexivity.
Qed.
Lemma slice_suffix : forall A (l1 l2 : list A) a n, 0 <= a -> slice (zlen l1 + a) n (l1 ++ l2) = slice a n l2.
Proof.
  intros A l1 l2 a n A0. unfold slice, zlen. rewrite skipn_app.
  replace (Z.to_nat (Z.of_nat (length l1) + a) - length l1)%nat with (Z.to_nat a) by lia.
  rewrite skipn_all2 by lia. reflexivity.
Qed.

(** A statement and what is left of it when the program has been read: its bytes are where
    it put them, its references are recorded, and so are the labels known to it. *)
Definition sits (c : cfg) (fuel : nat) (s : st) (x : stmt) (s1 s2 : st) : Prop :=
  exec c fuel [x] s = (s1, Ok tt) /\ tidy s /\ later_refs s1 s2 /\ extends (labels s) (labels s2) /\ sane s2 /\
  forall b, assembled s1 = assembled s ++ b ->
    exists pre out, assembled s2 = pre ++ b ++ out /\ length pre = length (assembled s).

Lemma passes_sits : forall c fuel text s0 s x s1 s2, fits c -> handlers neat c -> byte_files c -> sane s0 ->
  passes_through c fuel text s0 s x s1 s2 -> sits c fuel s x s1 s2.
Proof.
  intros c fuel text s0 s x s1 s2 F N B SN H. pose proof H as (ss1 & ss2 & _ & _ & X & Y).
  assert (SN2 : sane s2) by (eapply C49_tidy; eauto). destruct SN as (T & _).
  destruct (through_good _ _ _ _ _ _ _ _ F N H) as (G1 & G2 & G3).
  destruct (G1 T) as (T1 & _). destruct (G2 T1) as (T2 & _ & _ & L1 & _).
  destruct (G3 T2) as (_ & (out & A) & LR & L2 & _).
  split; [exact X|]. split; [exact T1|]. split; [exact LR|]. split; [eapply ExecFacts.extends_trans; eauto|]. split; [exact SN2|].
  intros b E. exists (assembled s), out. rewrite A, E, <- app_assoc. auto.
Qed.

(** The references of a statement in the middle of a program. *)
Lemma statement_refs : forall c fuel s x s1 s2 b ds,
  sits c fuel s x s1 s2 -> emitted (referring s ds) b s1 ->
  Forall sound_ref ds -> placed (zlen b) ds ->
  exists before out r1 r2, assembled s2 = before ++ b ++ out /\ length before = length (assembled s) /\
    labels_addresses s2 = r1 ++ map (fun d => (zlen (assembled s) + ld_offset d, d)) ds ++ r2 /\
    Forall (fun r => exists iv, occupies r iv /\ fst iv < snd iv <= zlen (assembled s)) r1 /\
    Forall (fun r => zlen (assembled s) + zlen b <= fst r) r2.
Proof.
  intros c fuel s x s1 s2 b ds (_ & T1 & (r2 & L & L2) & _ & _ & A) E S P.
  pose proof T1 as T1'. destruct T1' as (ivs & TF & TI & TD).
  assert (RN : labels_addresses (referring s ds) =
    labels_addresses s ++ map (fun d => (zlen (assembled s) + ld_offset d, d)) ds).
  { apply (referring_new ds (map ld_size ds)).
    - clear - S. induction S as [|d ds (B & _ & _ & H & _) S IH]; cbn [map]; constructor; auto. constructor; auto.
    - destruct P as [P _]. clear - S P. induction S as [|d ds (B & _) S IH]; cbn [map]; constructor; inversion P; subst; auto. lia.
    - destruct P as [_ D]. clear - D. induction D as [|d ds H D IH]; cbn [map combine]; constructor; auto. cbn [fst snd].
      clear - H. induction ds; cbn [map combine]; constructor; inversion H; subst; auto.
    - intros k K. left. rewrite (forall2_keys _ _ TF) in K.
      apply in_map_iff in K. destruct K as (iv & <- & K). rewrite Forall_forall in TI. apply TI in K. lia. }
  assert (A1 : assembled s1 = assembled s ++ b) by (rewrite E, referring_same; reflexivity).
  destruct (A b A1) as (before & out & A2 & A3).
  exists before, out, (labels_addresses s), r2. split; [exact A2|]. split; [exact A3|].
  split; [rewrite L; replace (labels_addresses s1) with (labels_addresses (referring s ds)) by (rewrite E; reflexivity);
          rewrite RN, app_assoc; reflexivity|].
  split.
  - clear - TF TI. induction TF as [|r iv l ivs O F IH]; constructor; inversion TI; subst; auto.
    exists iv. split; [exact O|lia].
  - rewrite A1, zlen_app in L2. exact L2.
Qed.

Lemma sits_field : forall c fuel s x s1 s2 s3 b ds d,
  fits c -> sits c fuel s x s1 s2 -> emitted (referring s ds) b s1 ->
  Forall sound_ref ds -> placed (zlen b) ds -> short_texts c s2 ->
  link c dummy_linker s2 = (s3, Ok tt) -> In d ds ->
  exists v, field_value (c_p c) (labels s2) d v /\
    read_value (big_endian (c_p c)) (slice (zlen (assembled s) + ld_offset d) (ld_size d) (assembled s3)) =
      Z.lor (read_value (big_endian (c_p c)) (slice (ld_offset d) (ld_size d) b))
            (v mod 2 ^ (8 * ld_size d)).
Proof.
  intros c fuel s x s1 s2 s3 b ds d F H E S P NT LK I.
  destruct (statement_refs _ _ _ _ _ _ _ _ H E S P) as (before & out & r1 & r2 & A & AL & L & _).
  pose proof H as (_ & _ & _ & _ & SN2 & _).
  destruct SN2 as (T2 & R2 & Y2).
  assert (IN : In (zlen (assembled s) + ld_offset d, d) (labels_addresses s2)).
  { rewrite L. apply in_or_app. right. apply in_or_app. left. apply in_map_iff. eauto. }
  rewrite Forall_forall in S. destruct (S d I) as (SZ & _ & _ & HK & _).
  destruct (tidy_alone c _ _ _ (ld_size d) T2 NT IN (t_field d HK)) as (l1 & l2 & RE & DJ).
  destruct P as [P _]. rewrite Forall_forall in P. apply P in I.
  destruct (image_field c s2 s3 l1 (zlen (assembled s) + ld_offset d) d l2) as (v & FV & P1 & P2 & RD); auto; [apply F|].
  exists v. split; auto. rewrite RD. f_equal. f_equal.
  rewrite A. replace (zlen (assembled s)) with (zlen before) by (unfold zlen; lia). rewrite slice_suffix by lia. apply slice_prefix; lia.
Qed.
Lemma sits_rest : forall c fuel s x s1 s2 s3 b ds i,
  fits c -> sits c fuel s x s1 s2 -> emitted (referring s ds) b s1 ->
  Forall sound_ref ds -> placed (zlen b) ds -> short_texts c s2 ->
  link c dummy_linker s2 = (s3, Ok tt) ->
  (i < length b)%nat -> (forall d, In d ds -> ~ covers (ld_offset d, d) (Z.of_nat i)) ->
  nth_error (assembled s3) (length (assembled s) + i) = nth_error b i.
Proof.
  intros c fuel s x s1 s2 s3 b ds i F H E S P NT LK I NC.
  destruct (statement_refs _ _ _ _ _ _ _ _ H E S P) as (before & out & r1 & r2 & A & AL & L & L1 & L2).
  pose proof H as (_ & _ & _ & _ & SN2 & _).
  destruct SN2 as (T2 & R2 & Y2).
  rewrite (image_outside c s2 s3); auto.
  - rewrite A, nth_error_app2 by lia. rewrite nth_error_app1 by lia. f_equal. lia.
  - apply F.
  - intros r ch k y J R IC ->. pose proof J as J0. rewrite L in J. apply in_app_or in J.
    rewrite Forall_forall in L1, L2, S. destruct J as [J|J].
    + destruct (L1 _ J) as (iv & O & NE1 & NE2). pose proof (changes_own c s2 r iv ch _ y NT J0 O NE1 R IC) as K.
      unfold zlen in NE2. lia.
    + apply in_app_or in J. destruct J as [J|J].
      * apply in_map_iff in J. destruct J as (d & <- & J). destruct (S d J) as (_ & _ & _ & HK & _). apply (NC d J).
        pose proof (changes_covered _ _ (zlen (assembled s) + ld_offset d, d) _ _ _ HK R IC) as K. unfold covers, zlen in *. cbn [fst snd] in *. lia.
      * apply L2 in J. destruct T2 as (ivs & TF & TN & _).
        assert (OC : exists iv, occupies r iv /\ fst iv < snd iv).
        { clear - TF TN J0. induction TF as [|r2 iv2 l ivs O2 F IH]; [contradiction|]. inversion TN; subst.
          destruct J0 as [->|J0]; [exists iv2; split; [auto|lia]|auto]. }
        destruct OC as (iv & O & NE). pose proof (changes_own c s2 r iv ch _ y NT J0 O NE R IC) as K. destruct O as [O _].
        unfold zlen in J. lia.
Qed.

(** After linking, the bytes of a reference of any statement read back as what the
    instruction put there OR the value of the reference, whatever else the program
    contains. *)
Theorem C49_field : forall c fuel text s0 s x s1 s2 s3 b ds d,
  fits c -> handlers neat c -> byte_files c -> sane s0 ->
  passes_through c fuel text s0 s x s1 s2 -> emitted (referring s ds) b s1 ->
  Forall sound_ref ds -> placed (zlen b) ds -> short_texts c s2 ->
  link c dummy_linker s2 = (s3, Ok tt) -> In d ds ->
  exists v, field_value (c_p c) (labels s2) d v /\
    read_value (big_endian (c_p c)) (slice (zlen (assembled s) + ld_offset d) (ld_size d) (assembled s3)) =
      Z.lor (read_value (big_endian (c_p c)) (slice (ld_offset d) (ld_size d) b))
            (v mod 2 ^ (8 * ld_size d)).
Proof.
  intros c fuel text s0 s x s1 s2 s3 b ds d F N B SN H E S P NT LK I.
  exact (sits_field c fuel s x s1 s2 s3 b ds d F (passes_sits _ _ _ _ _ _ _ _ F N B SN H) E S P NT LK I).
Qed.
Print Assumptions C49_field.

(** All other bytes of the statement are those it emitted. *)
Theorem C49_rest : forall c fuel text s0 s x s1 s2 s3 b ds i,
  fits c -> handlers neat c -> byte_files c -> sane s0 ->
  passes_through c fuel text s0 s x s1 s2 -> emitted (referring s ds) b s1 ->
  Forall sound_ref ds -> placed (zlen b) ds -> short_texts c s2 ->
  link c dummy_linker s2 = (s3, Ok tt) ->
  (i < length b)%nat -> (forall d, In d ds -> ~ covers (ld_offset d, d) (Z.of_nat i)) ->
  nth_error (assembled s3) (length (assembled s) + i) = nth_error b i.
Proof.
  intros c fuel text s0 s x s1 s2 s3 b ds i F N B SN H E S P NT LK I NC.
  exact (sits_rest c fuel s x s1 s2 s3 b ds i F (passes_sits _ _ _ _ _ _ _ _ F N B SN H) E S P NT LK I NC).
Qed.
Print Assumptions C49_rest.

Definition c49_text : str := lines ["nop"; "jmp far"; "bne x"; "x: .dw far"; "far: nop"]%string.
Example C49_example : let c := mos6502 demo_env in
  let s0 := init_st [] in
  let s := fst (exec c 5 [Stmt KInstruction [#"nop"] 1] s0) in
  let x := Stmt KInstruction [#"jmp"; #"far"] 2 in
  let s1 := fst (exec c 5 [x] s) in
  let s2 := fst (assemble c 5 c49_text s0) in
  fits c /\ handlers neat c /\ byte_files c /\ sane s0 /\
  passes_through c 5 c49_text s0 s x s1 s2 /\
  emitted (referring s [ref #"far" 2 16 1 0]) [0x4C; 0; 0] s1 /\ short_texts c s2 /\
  placed 3 [ref #"far" 2 16 1 0] /\
  exists s3, link c dummy_linker s2 = (s3, Ok tt) /\
    assembled s2 = [0xEA; 0x4C; 0; 0; 0xD0; 0; 0; 0; 0xEA] /\
    assembled s3 = [0xEA; 0x4C; 8; 0; 0xD0; 0; 8; 0; 0xEA].
Proof.
  cbv zeta. split; [apply mos_fits|]. split; [apply mos_fits|]. split.
  { intros n b H. cbn [mos6502 mk_cfg c_env file_bytes demo_env] in H.
    repeat match type of H with (if ?x then _ else _) = _ => destruct x end; try discriminate; injection H as <-;
    repeat constructor; unfold is_byte; lia. }
  split; [apply sane_init|]. split.
  { exists [Stmt KInstruction [#"nop"] 1]. eexists. split; [vm_compute; reflexivity|]. split; [vm_compute; reflexivity|]. split; vm_compute; reflexivity. }
  split; [vm_compute; reflexivity|]. split; [apply short_of; vm_compute; repeat constructor|].
  split; [split; repeat constructor; cbn; lia|].
  eexists. split; [vm_compute; reflexivity|]. split; vm_compute; reflexivity.
Qed.

(** ** Consequences for single-field instructions *)

(** The bytes of a field in the byte order of the assembler. *)
Definition field_of (be : bool) (n : nat) (v : Z) : bytes :=
  let l := map (byte_of v) (seq 0 n) in if be then rev l else l.

Lemma bytes_eq : forall n l v, Forall is_byte l -> length l = n -> le_value l = v mod 256 ^ Z.of_nat n ->
  l = map (byte_of v) (seq 0 n).
Proof.
  intros n l v F L E. rewrite <- le_value_bytes in E.
  assert (G : forall l1 l2, length l1 = length l2 -> Forall is_byte l1 -> Forall is_byte l2 ->
    le_value l1 = le_value l2 -> l1 = l2).
  { induction l1 as [|x l1 IH]; intros [|y l2] LE F1 F2 V; try discriminate; auto.
    inversion F1; inversion F2; subst. cbn [le_value] in V. unfold is_byte in *. injection LE as LE.
    assert (x = y) by lia. subst. f_equal. apply IH; auto. lia. }
  apply G; auto; [rewrite map_length, seq_length; auto|].
  apply Forall_forall. intros x I. apply in_map_iff in I. destruct I as (j & <- & _). apply byte_of_byte.
Qed.

Lemma slice_length : forall A a n (l : list A), 0 <= a -> 0 <= n -> a + n <= zlen l -> zlen (slice a n l) = n.
Proof. intros A a n l A0 N0 L. unfold slice, zlen in *. rewrite firstn_length, skipn_length. lia. Qed.
Lemma slice_byte : forall a n l, Forall is_byte l -> Forall is_byte (slice a n l).
Proof. intros. unfold slice. apply Forall_firstn, Forall_skipn; auto. Qed.
Lemma nth_slice : forall A (l : list A) a n i, 0 <= a -> (i < Z.to_nat n)%nat ->
  nth_error (slice a n l) i = nth_error l (Z.to_nat a + i).
Proof.
  intros A l a n i A0 I. unfold slice. revert I. generalize (Z.to_nat n) as m. generalize (Z.to_nat a) as k. clear.
  intros k m I. revert l m i I. induction k; intros l m i I.
  - cbn [skipn plus]. revert m i I. induction l; intros m i I; [destruct m, i; reflexivity|].
    destruct m; [lia|]. destruct i; [reflexivity|]. cbn [firstn nth_error]. apply IHl. lia.
  - destruct l as [|x l]; [destruct m, i; reflexivity|]. cbn [skipn plus nth_error]. auto.
Qed.
Lemma nth_error_eq : forall A (l1 l2 : list A), length l1 = length l2 ->
  (forall i, (i < length l1)%nat -> nth_error l1 i = nth_error l2 i) -> l1 = l2.
Proof.
  induction l1 as [|x l1 IH]; intros [|y l2] L H; try discriminate; auto.
  pose proof (H 0%nat ltac:(cbn; lia)) as E. injection E as ->. f_equal. apply IH; [injection L; auto|].
  intros i I. apply (H (Datatypes.S i)). cbn. lia.
Qed.

Section Sits.
  Context (c : cfg) (fuel : nat) (s : st) (x : stmt) (s1 s2 s3 : st) (b : bytes) (ds : list labeldata)
    (F : fits c) (B : byte_files c) (H : sits c fuel s x s1 s2) (E : emitted (referring s ds) b s1)
    (SR : Forall sound_ref ds) (PL : placed (zlen b) ds) (NT : short_texts c s2)
    (LK : link c dummy_linker s2 = (s3, Ok tt)).

  Lemma sits_refs_ok : Forall ref_ok (labels_addresses s2) /\ Forall is_byte (assembled s2).
  Proof.
    destruct H as (_ & _ & _ & _ & (_ & R2 & Y2) & _). auto.
  Qed.
  Lemma sits_bytes : Forall is_byte (assembled s3).
  Proof.
    destruct sits_refs_ok as [FO Y].
    assert (K : byte_state (fst (link c dummy_linker s2))).
    { apply (bytes_history c (fun lk => lk = dummy_linker)) with (a := s2); [apply fits_bytes; auto| | | | |].
      - apply fits_keep; auto.
        + intros t es S [X1 X2]. split; [rewrite referring_same; exact X1|apply referring_hooks; auto].
        + intros t bits z FB [X1 X2]. split; [apply Forall_app; auto|exact X2].
      - destruct F as (_ & _ & (N1 & N2) & _). intros m t I. rewrite N1, N2 in I. destruct I.
      - intros lk ->. apply dummy_bytes.
      - apply h_link; [apply h_start|reflexivity].
      - split; auto. apply ref_ok_hooks. exact FO. }
    rewrite LK in K. apply K.
  Qed.
  Lemma sits_length : zlen (assembled s) + zlen b <= zlen (assembled s3).
  Proof.
    destruct sits_refs_ok as [FO _].
    destruct (C22_image c s2 s3) as (_ & _ & _ & L & _); auto; [apply F|].
    destruct (statement_refs _ _ _ _ _ _ _ _ H E SR PL) as (before & out & _ & _ & A & AL & _).
    unfold zlen. rewrite L, A, !app_length. lia.
  Qed.
  Lemma sits_slice : forall i, (i < length b)%nat ->
    (forall d, In d ds -> ~ covers (ld_offset d, d) (Z.of_nat i)) ->
    nth_error (slice (zlen (assembled s)) (zlen b) (assembled s3)) i = nth_error b i.
  Proof.
    intros i I NC. rewrite nth_slice; [|unfold zlen; lia|unfold zlen; lia].
    replace (Z.to_nat (zlen (assembled s))) with (length (assembled s)) by (unfold zlen; lia).
    eapply sits_rest; eauto.
  Qed.

  (** A statement without references is in the image as it was emitted. *)
  Lemma sits_none : ds = [] -> slice (zlen (assembled s)) (zlen b) (assembled s3) = b.
  Proof.
    intros E0. pose proof sits_length as LL. assert (0 <= zlen (assembled s)) by apply zlen_nonneg.
    assert (L : zlen (slice (zlen (assembled s)) (zlen b) (assembled s3)) = zlen b)
      by (apply slice_length; auto; apply zlen_nonneg).
    assert (L' : length (slice (zlen (assembled s)) (zlen b) (assembled s3)) = length b) by (apply Nat2Z.inj; exact L).
    apply nth_error_eq; [exact L'|]. intros i I. rewrite L' in I.
    apply sits_slice; [exact I|]. rewrite E0. contradiction.
  Qed.
  (** A field of zero bytes is replaced by the value. *)
  Lemma sits_one : forall pre n post d, ds = [d] -> b = pre ++ repeat 0 n ++ post ->
    ld_offset d = zlen pre -> ld_size d = Z.of_nat n ->
    exists v, field_value (c_p c) (labels s2) d v /\
      slice (zlen (assembled s)) (zlen b) (assembled s3) = pre ++ field_of (big_endian (c_p c)) n v ++ post.
  Proof.
    intros pre n post d E0 Eb O SZ.
    destruct (sits_field c fuel s x s1 s2 s3 b ds d F H E SR PL NT LK) as (v & FV & RD);
      [rewrite E0; left; auto|].
    exists v. split; auto. pose proof sits_length as LL. assert (A0 : 0 <= zlen (assembled s)) by apply zlen_nonneg.
    assert (Lb : zlen b = zlen pre + Z.of_nat n + zlen post).
    { rewrite Eb, !zlen_app. unfold zlen. rewrite repeat_length. lia. }
    assert (P0 : 0 <= zlen pre) by apply zlen_nonneg. assert (Q0 : 0 <= zlen post) by apply zlen_nonneg.
    set (mid := slice (zlen (assembled s) + ld_offset d) (ld_size d) (assembled s3)) in *.
    assert (ML : zlen mid = Z.of_nat n) by (unfold mid; rewrite slice_length; lia).
    assert (MB : Forall is_byte mid) by (apply slice_byte, sits_bytes).
    assert (ME : mid = field_of (big_endian (c_p c)) n v).
    { rewrite Eb, O, SZ in RD. rewrite <- (Z.add_0_r (zlen pre)) in RD at 1. rewrite slice_suffix in RD by lia.
      rewrite slice_prefix in RD; [|lia|lia|unfold zlen; rewrite repeat_length; lia].
      assert (R0 : read_value (big_endian (c_p c)) (slice 0 (Z.of_nat n) (repeat 0 n)) = 0).
      { unfold slice. rewrite Nat2Z.id. cbn [Z.to_nat skipn]. rewrite firstn_all2 by (rewrite repeat_length; auto).
        assert (G : forall k, le_value (repeat 0 k) = 0) by (induction k; cbn [repeat le_value]; lia).
        unfold read_value. destruct (big_endian (c_p c)); auto.
        replace (rev (repeat 0 n)) with (repeat 0 n); auto.
        clear. induction n; auto. cbn [repeat rev]. rewrite <- IHn. clear. induction n; auto. cbn [repeat app]. congruence. }
      rewrite R0, Z.lor_0_l, Z.pow_mul_r in RD by lia. change (2 ^ 8) with 256 in RD.
      unfold field_of, read_value in *. destruct (big_endian (c_p c)).
      - rewrite <- (rev_involutive mid). f_equal. apply bytes_eq; auto.
        + apply Forall_rev. auto.
        + rewrite rev_length. unfold zlen in ML. lia.
      - apply bytes_eq; auto. unfold zlen in ML. lia. }
    rewrite <- ME.
    assert (SL : zlen (slice (zlen (assembled s)) (zlen b) (assembled s3)) = zlen b)
      by (apply slice_length; lia).
    assert (SL' : length (slice (zlen (assembled s)) (zlen b) (assembled s3)) = length b) by (apply Nat2Z.inj; exact SL).
    assert (ML' : length mid = n) by (apply Nat2Z.inj; exact ML).
    assert (Lb' : length b = (length pre + n + length post)%nat) by (unfold zlen in Lb; lia).
    apply nth_error_eq; [rewrite !app_length; lia|]. intros i IB. rewrite SL' in IB.
    destruct (Nat.lt_ge_cases i (length pre)) as [C1|C1]; [|destruct (Nat.lt_ge_cases i (length pre + n)) as [C2|C2]].
    - rewrite sits_slice; auto.
      + rewrite Eb, !nth_error_app1 by auto. reflexivity.
      + rewrite E0. intros d' [<-|[]]. unfold covers, zlen in *. cbn [fst snd]. lia.
    - rewrite nth_error_app2 by lia. rewrite nth_error_app1 by lia.
      unfold mid. rewrite !nth_slice by (unfold zlen in *; lia). f_equal. unfold zlen in *. lia.
    - rewrite sits_slice; auto.
      + rewrite Eb, !nth_error_app2; unfold zlen in *; rewrite ?repeat_length in *; try lia. f_equal. lia.
      + rewrite E0. intros d' [<-|[]]. unfold covers, zlen in *. cbn [fst snd]. lia.
  Qed.
End Sits.

Section Linked.
  Context (c : cfg) (fuel : nat) (text : str) (s0 s : st) (x : stmt) (s1 s2 s3 : st) (b : bytes) (ds : list labeldata)
    (F : fits c) (N : handlers neat c) (B : byte_files c) (SN : sane s0)
    (H : passes_through c fuel text s0 s x s1 s2) (E : emitted (referring s ds) b s1)
    (SR : Forall sound_ref ds) (PL : placed (zlen b) ds) (NT : short_texts c s2)
    (LK : link c dummy_linker s2 = (s3, Ok tt)).

  Local Notation SI := (passes_sits _ _ _ _ _ _ _ _ F N B SN H).

  Lemma linked_bytes : Forall is_byte (assembled s3).
  Proof. exact (sits_bytes c fuel s x s1 s2 s3 F B SI LK). Qed.
  Lemma linked_length : zlen (assembled s) + zlen b <= zlen (assembled s3).
  Proof. exact (sits_length c fuel s x s1 s2 s3 b ds F SI E SR PL LK). Qed.
  Lemma linked_rest : forall i, (i < length b)%nat ->
    (forall d, In d ds -> ~ covers (ld_offset d, d) (Z.of_nat i)) ->
    nth_error (slice (zlen (assembled s)) (zlen b) (assembled s3)) i = nth_error b i.
  Proof. exact (sits_slice c fuel s x s1 s2 s3 b ds F SI E SR PL NT LK). Qed.
  Lemma linked_none : ds = [] -> slice (zlen (assembled s)) (zlen b) (assembled s3) = b.
  Proof. exact (sits_none c fuel s x s1 s2 s3 b ds F SI E SR PL NT LK). Qed.
  Lemma linked_one : forall pre n post d, ds = [d] -> b = pre ++ repeat 0 n ++ post ->
    ld_offset d = zlen pre -> ld_size d = Z.of_nat n ->
    exists v, field_value (c_p c) (labels s2) d v /\
      slice (zlen (assembled s)) (zlen b) (assembled s3) = pre ++ field_of (big_endian (c_p c)) n v ++ post.
  Proof. exact (sits_one c fuel s x s1 s2 s3 b ds F B SI E SR PL NT LK). Qed.
End Linked.
