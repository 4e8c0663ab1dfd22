(** PowerPC words in the linked image. *)
From Coq Require Import Lia.
From Verif Require Import Py PyFacts Utils Tokenizer State Assembler SpecUtils SpecParse SpecExec SpecLink UtilsFacts SpecCpu SpecPlace Ppc SpecPpc
  CpuFacts WordFacts MipsFacts FitFacts FitInstr LabelMono PropsPlace WordLink PropsFit PpcFacts PpcEnc FitPpc.
Local Open Scope Z_scope.

(** ** Replacing an empty field *)

Lemma fields_free : forall fs w g, Forall (shaped 32) fs -> ForallOrdPairs apart fs -> Forall (free w) fs -> shaped 32 g -> free w g ->
  Forall (fun f => apart f g) fs -> free (all_fields w fs) g.
Proof.
  induction fs as [|f fs IH]; intros w g S A F SG FG AG; [exact FG|]. cbn [all_fields].
  inversion S as [|? ? S1 S2]; subst. inversion A as [|? ? A1 A2]; subst. inversion F as [|? ? F1 F2]; subst. inversion AG as [|? ? G1 G2]; subst.
  apply IH; [exact S2|exact A2| |exact SG|apply (with_free 32); assumption|exact G2].
  clear -S1 S2 A1 F1 F2. induction fs as [|h fs IH]; constructor; inversion S2; subst; inversion A1; subst; inversion F2; subst; [apply (with_free 32); assumption|apply IH; assumption].
Qed.
Lemma all_fields_app : forall fs gs w, all_fields w (fs ++ gs) = all_fields (all_fields w fs) gs.
Proof. induction fs as [|f fs IH]; intros gs w; [reflexivity|]. cbn [app all_fields]. apply IH. Qed.
Lemma pairs_app : forall A (R : A -> A -> Prop) l m, ForallOrdPairs R (l ++ m) -> ForallOrdPairs R l /\ ForallOrdPairs R m /\ Forall (fun x => Forall (R x) m) l.
Proof.
  intros A R l m. induction l as [|x l IH]; intros H; [repeat split; [constructor|exact H|constructor]|].
  inversion H as [|? ? H1 H2]; subst. destruct (IH H2) as (I1 & I2 & I3). apply Forall_app in H1. destruct H1 as [H1 H3]. repeat split; [constructor; assumption|exact I2|constructor; assumption].
Qed.
Lemma apart_sym : forall f g, apart f g -> apart g f.
Proof. intros [[h1 l1] v1] [[h2 l2] v2] H. cbn [apart] in *. tauto. Qed.
Lemma pairs_join : forall A (R : A -> A -> Prop) l m, ForallOrdPairs R l -> ForallOrdPairs R m -> Forall (fun x => Forall (R x) m) l -> ForallOrdPairs R (l ++ m).
Proof.
  intros A R l m H1 H2 H3. induction H1 as [|x l X H1 IH]; [exact H2|]. inversion H3; subst. cbn [app]. constructor; [apply Forall_app; split; assumption|apply IH; assumption].
Qed.
Lemma apart_value : forall f hl u v, apart f (hl, u) -> apart f (hl, v).
Proof. intros [[h1 l1] v1] [h l] u v H. exact H. Qed.

Lemma field_filled : forall fs gs hi lo w u,
  Forall (shaped 32) (fs ++ ((hi, lo), 0) :: gs) -> ForallOrdPairs apart (fs ++ ((hi, lo), 0) :: gs) -> Forall (free w) (fs ++ ((hi, lo), 0) :: gs) -> 0 <= w < 2 ^ 32 ->
  all_fields w (fs ++ ((hi, lo), u) :: gs) = all_fields w (fs ++ ((hi, lo), 0) :: gs) + u mod 2 ^ (hi - lo + 1) * 2 ^ lo /\
  (all_fields w (fs ++ ((hi, lo), 0) :: gs) / 2 ^ lo) mod 2 ^ (hi - lo + 1) = 0 /\ 0 <= lo <= hi /\ hi < 32.
Proof.
  intros fs gs hi lo w u S A F W. apply pairs_app in A. destruct A as (A1 & A2 & A3). inversion A2 as [|? ? A4 A5]; subst.
  apply Forall_app in S, F. destruct S as [S1 S2], F as [F1 F2]. inversion S2 as [|? ? S3 S4]; subst. inversion F2 as [|? ? F3 F4]; subst.
  assert (Z0 : all_fields w (fs ++ ((hi, lo), 0) :: gs) = all_fields w (fs ++ gs)).
  { rewrite !all_fields_app. cbn [all_fields with_field]. rewrite Z.mod_0_l, Z.mul_0_l, Z.add_0_r; [reflexivity|]. destruct S3 as [S3 _]. apply Z.pow_nonzero; lia. }
  split; [|split; [|exact S3]].
  - rewrite Z0, !all_fields_app. cbn [all_fields with_field]. apply all_fields_add.
  - rewrite Z0. apply (clear_mod _ hi lo); [apply S3|]. change (free (all_fields w (fs ++ gs)) ((hi, lo), 0)). apply fields_free.
    + apply Forall_app. split; assumption.
    + apply pairs_join; [exact A1|exact A5|]. eapply Forall_impl; [|exact A3]. intros f X. inversion X; assumption.
    + apply Forall_app. split; assumption.
    + exact S3.
    + exact F3.
    + apply Forall_app. split.
      * eapply Forall_impl; [|exact A3]. intros f X. inversion X; assumption.
      * eapply Forall_impl; [|exact A4]. intros f X. apply apart_sym. exact X.
Qed.
Lemma fields_at_app : forall fs gs vs us, length fs = length vs -> fields_at (fs ++ gs) (vs ++ us) = fields_at fs vs ++ fields_at gs us.
Proof. induction fs as [|f fs IH]; intros gs [|v vs] us L; try discriminate L; [reflexivity|]. cbn [app fields_at]. rewrite IH by (cbn [length] in L; lia). reflexivity. Qed.

(** ** Operands of one reference *)

Lemma reads_app : forall s fs ts vs ds d es, reads_all s fs ts vs (ds ++ d :: es) -> exists fs1 f fs2 ts1 t ts2 vs1 v vs2 ds1 d1 ds2,
  fs = fs1 ++ f :: fs2 /\ ts = ts1 ++ t :: ts2 /\ vs = vs1 ++ v :: vs2 /\ reads_all s fs1 ts1 vs1 ds1 /\ reads1 s f t v d1 /\ reads_all s fs2 ts2 vs2 ds2 /\
  ds ++ d :: es = ds1 ++ d1 ++ ds2 /\ ds1 = ds /\ In d d1.
Proof.
  intros s fs ts vs ds d es R. remember (ds ++ d :: es) as all eqn:E. revert ds E.
  induction R as [|f fs t ts v vs d0 ds0 R1 R IH]; intros ds E; [destruct ds; discriminate E|].
  assert (L : d0 = [] \/ exists x, d0 = [x]).
  { inversion R1 as [| | | |a b t' v' ds' NB|a b t' v' ds' NB|a b t' v' ds' NB|a b t' v' ds' NB]; subst; auto; destruct NB; eauto. }
  destruct L as [-> |(x & ->)].
  - cbn [app] in *. destruct (IH ds E) as (fs1 & g & fs2 & ts1 & t' & ts2 & vs1 & v' & vs2 & ds1 & d1 & ds2 & -> & -> & -> & Ra & Rb & Rc & Ee & -> & I).
    exists (f :: fs1), g, fs2, (t :: ts1), t', ts2, (v :: vs1), v', vs2, ds, d1, ds2. repeat (split; [first [reflexivity|exact Rb|exact Rc|exact Ee|change ds with ([] ++ ds); constructor; [exact R1|exact Ra]]|]). exact I.
  - destruct ds as [|y ds]; cbn [app] in E.
    + injection E as -> ->. exists [], f, fs, [], t, ts, [], v, vs, [], [d], es. repeat (split; [first [reflexivity|exact R1|exact R|constructor]|]). left. reflexivity.
    + injection E as -> E. destruct (IH ds E) as (fs1 & g & fs2 & ts1 & t' & ts2 & vs1 & v' & vs2 & ds1 & d1 & ds2 & -> & -> & -> & Ra & Rb & Rc & Ee & -> & I).
      exists (f :: fs1), g, fs2, (t :: ts1), t', ts2, (v :: vs1), v', vs2, (y :: ds), d1, ds2.
      repeat (split; [first [reflexivity|exact Rb|exact Rc|cbn [app]; rewrite Ee; reflexivity|change (y :: ds) with ([y] ++ ds); constructor; [exact R1|exact Ra]]|]). exact I.
Qed.
Lemma reads_settled : forall s s2 fs ts vs ds, reads_all s fs ts vs ds -> ds = [] -> Forall2 (fun '(f, t) v => settled1 s s2 f t v) (combine fs ts) vs.
Proof.
  intros s s2 fs ts vs ds R. induction R as [|f fs t ts v vs d0 ds0 R1 R IH]; intros E; [constructor|]. apply app_eq_nil in E. destruct E as [-> ->].
  cbn [combine]. constructor; [apply st_read; exact R1|apply IH; reflexivity].
Qed.
Lemma settled_app : forall s s2 fs ts vs gs us xs, Forall2 (fun '(f, t) v => settled1 s s2 f t v) (combine fs ts) vs ->
  Forall2 (fun '(f, t) v => settled1 s s2 f t v) (combine gs us) xs -> length fs = length ts ->
  Forall2 (fun '(f, t) v => settled1 s s2 f t v) (combine (fs ++ gs) (ts ++ us)) (vs ++ xs).
Proof.
  intros s s2 fs ts vs gs us xs A B L. assert (E : combine (fs ++ gs) (ts ++ us) = combine fs ts ++ combine gs us).
  { clear -L. revert ts L. induction fs as [|f fs IH]; intros [|t ts] L; try discriminate L; [reflexivity|]. cbn [app combine]. rewrite IH by (cbn [length] in L; lia). reflexivity. }
  rewrite E. apply Forall2_app; assumption.
Qed.

(** ** The linked word *)

Lemma manual_facts : forall t0 w fs, In (lower t0, (w, fs)) manual -> ~ In (lower t0, length fs) deviating ->
  forall s ts vs ds, reads_all s fs ts vs ds -> 0 <= w < 2 ^ 32 /\ Forall in_word fs /\ Forall (shaped 32) (fields_at fs vs) /\
    ForallOrdPairs apart (fields_at fs vs) /\ Forall (free w) (fields_at fs vs) /\ Forall fits_field (fields_at fs vs).
Proof.
  intros t0 w fs M ND s ts vs ds R. destruct (named _ _ M) as (base & cs & D). destruct (entry_of _ _ _ D) as (_ & A & B).
  destruct (B w fs M) as ([-> |V] & c & I & SH); [|contradiction]. destruct (A c I) as (OK & _). exact (shape_facts base c fs SH OK s ts vs ds R).
Qed.
Lemma word_bound : forall t0 w fs, In (lower t0, (w, fs)) manual -> ~ In (lower t0, length fs) deviating ->
  forall s ts vs ds, reads_all s fs ts vs ds -> 0 <= filled w fs vs < 2 ^ 32.
Proof.
  intros t0 w fs M ND s ts vs ds R. destruct (manual_facts t0 w fs M ND s ts vs ds R) as (W & IW & SP & AP & FR & FF).
  rewrite (filled_eq fs vs w IW). apply (pack_apart 32); assumption.
Qed.
Lemma forms_apart : forall t0 f g, In (lower t0, f) manual -> In (lower t0, g) manual -> ~ In (lower t0, length (snd f)) deviating -> length (snd f) = length (snd g) ->
  fst f = fst g.
Proof.
  intros t0 [w fs] [x gs] M M2 ND L. cbn [fst snd] in *. destruct (named _ _ M) as (base & cs & D). destruct (entry_of _ _ _ D) as (_ & _ & B).
  destruct (B w fs M) as ([-> |V] & _); [|contradiction]. destruct (B x gs M2) as ([-> |V] & _); [reflexivity|]. rewrite <- L in V. contradiction.
Qed.

(** ** One reading *)

Definition same_form (f g : str * form) : bool :=
  let '(n, (w, fs)) := f in let '(m, (x, gs)) := g in
  if str_eqb n m && Nat.eqb (length fs) (length gs) then (w =? x) && fields_eqb fs gs else true.
Definition all_same : bool := forallb (fun f => forallb (same_form f) manual) manual.
Lemma same_true : all_same = true.
Proof. vm_cast_no_check (eq_refl true). Qed.
Strategy expand [all_same].
Lemma one_form : forall n f g, In (n, f) manual -> In (n, g) manual -> length (snd f) = length (snd g) -> f = g.
Proof.
  intros n [w fs] [x gs] F G L. pose proof same_true as H. unfold all_same in H. rewrite forallb_forall in H. apply H in F. rewrite forallb_forall in F. apply F in G.
  cbn [same_form] in G. cbn [snd] in L. rewrite str_eqb_refl, L, Nat.eqb_refl in G. cbn [andb] in G. apply andb_prop in G. destruct G as [G1 G2].
  apply Z.eqb_eq in G1. apply fields_eqb_eq in G2. congruence.
Qed.
Lemma number_same : forall s f t sg rel g v ds w es, number s f t sg rel g v ds -> number s f t sg rel g w es -> v = w /\ ds = es.
Proof.
  intros s f t sg rel g v ds w es A B. destruct A as [a P N1|P N1]; inversion B as [b Q N2|Q N2]; subst; unfold num, not_num in N1, N2; rewrite N1 in N2.
  - injection N2 as ->. auto.
  - discriminate N2.
  - discriminate N2.
  - auto.
Qed.
Lemma no_zero_reg : forall n, ~ nth_reg gprs #"0" n.
Proof. intros n H. assert (I : In (lower #"0") gprs) by (apply nth_reg_In; eauto). apply str_in_In in I. vm_compute in I. discriminate I. Qed.
Lemma reads1_same : forall s f t v ds w es, reads1 s f t v ds -> reads1 s f t w es -> v = w /\ ds = es.
Proof.
  intros s f t v ds w es A B. destruct A as [a b t n R Z0|a b t n R|a b|a b t n R|a b t v ds NB|a b t v ds NB|a b t v ds NB|a b t v ds NB];
    inversion B as [? ? ? ? R2|? ? ? ? R2|? ?|? ? ? ? R2|? ? ? ? ? NB2|? ? ? ? ? NB2|? ? ? ? ? NB2|? ? ? ? ? NB2]; subst;
    try (eapply number_same; [exact NB|exact NB2]).
  - split; [|reflexivity]. apply (nodup_nth gprs gprs_nodup t); assumption.
  - split; [|reflexivity]. apply (nodup_nth gprs gprs_nodup t); assumption.
  - destruct (no_zero_reg _ R).
  - destruct (no_zero_reg _ R2).
  - auto.
  - split; [|reflexivity]. apply (nodup_nth fprs fprs_nodup t); assumption.
Qed.
Lemma reads_same : forall s fs ts vs ds ws es, reads_all s fs ts vs ds -> reads_all s fs ts ws es -> vs = ws /\ ds = es.
Proof.
  intros s fs ts vs ds ws es A. revert ws es. induction A as [|f fs t ts v vs d ds R1 R IH]; intros ws es B; inversion B as [|? ? ? ? ? ? ? ? R1' R']; subst; [auto|].
  destruct (reads1_same _ _ _ _ _ _ _ R1 R1') as [-> ->]. destruct (IH _ _ R') as [-> ->]. auto.
Qed.
Lemma ppc_unambiguous : forall n s f g ops w ds x es, In (n, f) manual -> In (n, g) manual -> encodes s f ops w ds -> encodes s g ops x es ->
  f = g /\ w = x /\ ds = es.
Proof.
  intros n s f g ops w ds x es F G A B. assert (f = g) as <-.
  { apply (one_form n); [exact F|exact G|]. apply encodes_len in A. apply encodes_len in B. congruence. }
  destruct A as (vs & A & ->), B as (ws & B & ->). destruct (reads_same _ _ _ _ _ _ _ A B) as [-> ->]. auto.
Qed.

Lemma word_bytes_len : forall be w, zlen (SpecMips.word_bytes be w) = 4.
Proof. intros [] w; reflexivity. Qed.

Lemma absolute_target : forall p lbls d a v, target p lbls d a v -> ld_relative d = 0 -> v = a /\ label_absolute p lbls (ld_label d) = Ok (Some a).
Proof. intros p lbls d a v T R. inversion T; subst; [auto|contradiction]. Qed.
Lemma relative_target : forall p lbls d a v, target p lbls d a v -> ld_relative d <> 0 -> label_relative p lbls (ld_label d) (ld_relative d) = Ok (Some v).
Proof. intros p lbls d a v T R. inversion T; subst; [contradiction|assumption]. Qed.

Section Linked.
  Context (e : env) (fuel : nat) (text : str) (s0 s : st) (words : list str) (l : Z) (s1 s2 s3 : st) (t0 : str) (ops : list str) (w : Z) (fs : list field).
  Let c := powerpc e.
  Context (B : byte_files c) (SN : sane s0) (H : passes_through c fuel text s0 s (Stmt KInstruction words l) s1 s2)
    (OS : opcode_stmt c s words t0 ops) (M : In (lower t0, (w, fs)) manual) (ND : ~ In (lower t0, length ops) deviating)
    (NT : short_texts c s2) (LK : link c dummy_linker s2 = (s3, Ok tt)).

  Lemma ppc_emitted : forall v ds, encodes s (w, fs) ops v ds -> emitted (referring s ds) (SpecMips.word_bytes true v) s1.
  Proof.
    intros v ds EN. destruct H as (_ & _ & _ & _ & X & _). apply (ppc_encoding e fuel words l s s1 t0 ops OS ND) in X.
    destruct X as (g & v' & ds' & M2 & EN2 & EM). destruct (ppc_unambiguous _ _ _ _ _ _ _ _ _ M M2 EN EN2) as (_ & -> & ->). exact EM.
  Qed.
  Lemma ppc_known : forall v, encodes s (w, fs) ops v [] -> slice (zlen (assembled s)) 4 (assembled s3) = SpecMips.word_bytes true v.
  Proof.
    intros v EN. pose proof (ppc_emitted v [] EN) as EM. destruct (ppc_fits e) as [F N].
    rewrite <- (word_bytes_len true v). apply (linked_none c fuel text s0 s _ s1 s2 s3 _ [] F N B SN H EM); auto; [apply placed_nil].
  Qed.
  Lemma ppc_filled : forall v t bits rel hi lo g, encodes s (w, fs) ops v [SpecMips.word_ref t bits rel hi lo g] -> 1 <= bits ->
    0 <= v < 2 ^ 32 -> 0 <= lo <= hi -> hi < 32 -> (v / 2 ^ lo) mod 2 ^ (hi - lo + 1) = 0 ->
    exists a x, target ppc (labels s2) (SpecMips.word_ref t bits rel hi lo g) a x /\ in_range (SpecMips.word_ref t bits rel hi lo g) x /\
      let u := match g with Some h => h x | None => x end in
      slice (zlen (assembled s)) 4 (assembled s3) = int_bytes true 4 (v + (u mod 2 ^ (hi - lo + 1)) * 2 ^ lo).
  Proof.
    intros v t bits rel hi lo g EN BS W L HI Z0. pose proof (ppc_emitted _ _ EN) as EM. destruct (ppc_fits e) as [F N].
    assert (SR : Forall sound_ref [SpecMips.word_ref t bits rel hi lo g]).
    { constructor; [|constructor]. repeat split; cbn; try lia. intros b X. injection X as <-. cbn [snd]. lia. }
    assert (PL : placed (zlen (SpecMips.word_bytes true v)) [SpecMips.word_ref t bits rel hi lo g]).
    { rewrite word_bytes_len. apply placed_one; cbn; lia. }
    destruct (linked_word c fuel text s0 s _ s1 s2 s3 _ _ F N B SN H EM SR PL NT LK 4 v _ hi lo eq_refl
      (word_bytes_eq true v W) W eq_refl eq_refl eq_refl L HI Z0) as (a & x & T & _ & R & _ & SL).
    exists a, x. split; [exact T|]. split; [exact R|]. exact SL.
  Qed.
  Lemma ppc_linked : forall v ds, encodes s (w, fs) ops v ds -> (length ds <= 1)%nat ->
    exists v', settled s s2 (w, fs) ops v' /\ slice (zlen (assembled s)) 4 (assembled s3) = SpecMips.word_bytes true v'.
  Proof.
    intros v ds EN LE. destruct ds as [|d ds].
    - exists v. split; [|apply ppc_known; exact EN]. destruct EN as (vs & R & ->). exists vs. split; [|reflexivity]. eapply reads_settled; [exact R|reflexivity].
    - destruct ds as [|d' ds]; [|cbn [length] in LE; lia]. assert (NDF : ~ In (lower t0, length fs) deviating) by (rewrite <- (encodes_len _ _ _ _ _ EN : length ops = length fs); exact ND).
      pose proof EN as EN0. destruct EN as (vs & R & EV). cbn [fst snd] in R, EV.
      pose proof (word_bound t0 w fs M NDF s ops vs [d] R) as WB. rewrite <- EV in WB.
      destruct (manual_facts t0 w fs M NDF s ops vs [d] R) as (W & IW & SP & AP & FR & _).
      destruct (reads_app s fs ops vs [] d [] R) as (fs1 & f & fs2 & ts1 & t & ts2 & vs1 & x & vs2 & ds1 & d1 & ds2 & E1 & E2 & E3 & Ra & Rb & Rc & Ee & E4 & I).
      subst ds1. cbn [app] in Ee. destruct d1 as [|y d1]; [destruct I|]. injection Ee as <- Ee. symmetry in Ee. apply app_eq_nil in Ee. destruct Ee as [-> ->].
      pose proof (reads_length _ _ _ _ _ Ra) as [La Lb].
      assert (G : forall o a b g rel sg, f = (o, a, b) -> number s f t sg rel g x [d] -> x = 0 /\ d = ppc_ref t f rel g /\ plain_word t /\ not_num ppc s t (width f) sg /\
        exists al u, target ppc (labels s2) d al u /\ in_range d u /\
          forall v', v' = filled w fs (vs1 ++ match g with Some h => h u | None => u end :: vs2) -> slice (zlen (assembled s)) 4 (assembled s3) = SpecMips.word_bytes true v').
      { intros o a b g rel sg EF NB. inversion NB as [|P Q]; subst x d. split; [reflexivity|]. split; [reflexivity|]. split; [exact P|]. split; [exact Q|].
        assert (IF : in_word f) by (rewrite E1 in IW; apply Forall_app in IW; destruct IW as [_ IW]; inversion IW; assumption).
        rewrite E3, E1, fields_at_app in SP, AP, FR by (symmetry; exact La). cbn [fields_at] in SP, AP, FR. subst f. cbn [field_at] in SP, AP, FR. cbn [in_word] in IF.
        pose proof EV as EV0. rewrite (filled_eq fs vs w IW), E3, E1, fields_at_app in EV by (symmetry; exact La). cbn [fields_at field_at] in EV.
        pose proof (fun u => field_filled _ _ _ _ w u SP AP FR W) as FF. rewrite <- EV in FF.
        destruct (FF 0) as (_ & Z0 & LO & HI).
        cbn [ppc_ref] in EN0 |- *. destruct (ppc_filled v t (width (o, a, b)) rel (31 - a) (31 - b) g EN0) as (al & u & T & RG & SL); [cbn [width]; lia|exact WB|exact LO|exact HI|exact Z0|].
        exists al, u. split; [exact T|]. split; [exact RG|]. cbv zeta in SL. intros v' ->. rewrite SL.
        set (h := match g with Some h => h u | None => u end) in *. destruct (FF h) as (FE & _). rewrite <- FE.
        rewrite (filled_eq fs (vs1 ++ h :: vs2) w IW), E1, fields_at_app by (symmetry; exact La). cbn [fields_at field_at]. rewrite word_bytes_eq; [reflexivity|].
        rewrite FE. apply (with_bound 32 v ((31 - a, 31 - b), h)); [split; assumption|apply clear_mod; assumption|exact WB]. }
      assert (DONE : forall u, settled1 s s2 f t u ->
        (forall v', v' = filled w fs (vs1 ++ u :: vs2) -> slice (zlen (assembled s)) 4 (assembled s3) = SpecMips.word_bytes true v') ->
        exists v', settled s s2 (w, fs) ops v' /\ slice (zlen (assembled s)) 4 (assembled s3) = SpecMips.word_bytes true v').
      { intros u SE SL. eexists. split; [|apply SL; reflexivity]. exists (vs1 ++ u :: vs2). split; [|reflexivity]. cbn [snd]. rewrite E1, E2.
        apply settled_app; [eapply reads_settled; [exact Ra|reflexivity]| |congruence]. cbn [combine]. constructor; [exact SE|]. eapply reads_settled; [exact Rc|reflexivity]. }
      inversion Rb as [| | | |a b t' v' ds' NB|a b t' v' ds' NB|a b t' v' ds' NB|a b t' v' ds' NB]; subst t' v' ds'.
      + destruct (G _ _ _ _ _ _ (eq_sym H0) ltac:(rewrite <- H0; exact NB)) as (_ & ED & P & Q & al & u & T & RG & SL).
        apply (DONE u); [|exact SL]. rewrite ED, <- H0 in T, RG. cbn [ppc_ref] in T, RG. apply absolute_target in T; [|reflexivity]. destruct T as [-> LA].
        apply (st_number s s2 f t al true); [exact P|exists a, b; left; split; [symmetry; exact H0|reflexivity]|exact Q|exact LA|]. rewrite <- H0. exact RG.
      + destruct (G _ _ _ _ _ _ (eq_sym H0) ltac:(rewrite <- H0; exact NB)) as (_ & ED & P & Q & al & u & T & RG & SL).
        apply (DONE u); [|exact SL]. rewrite ED, <- H0 in T, RG. cbn [ppc_ref] in T, RG. apply absolute_target in T; [|reflexivity]. destruct T as [-> LA].
        apply (st_number s s2 f t al false); [exact P|exists a, b; right; split; [symmetry; exact H0|reflexivity]|exact Q|exact LA|]. rewrite <- H0. exact RG.
      + destruct (G _ _ _ _ _ _ (eq_sym H0) ltac:(rewrite <- H0; exact NB)) as (_ & ED & P & Q & al & u & T & RG & SL).
        apply (DONE (u / 4)); [|intros v' EV'; apply SL; rewrite EV'; cbn [quarter]; rewrite shiftr_div by lia; reflexivity].
        rewrite ED, <- H0 in T, RG. cbn [ppc_ref] in T, RG. unfold in_range in RG. cbn [SpecMips.word_ref ld_relative ld_bits_size] in RG.
        destruct (Z.eqb_spec (pc s) 0) as [P0|P0].
        * rewrite P0 in T. apply absolute_target in T; [|reflexivity]. destruct T as [-> LA].
          apply (st_address s s2 f t al a b); [right; split; [symmetry; exact H0|exact P0]|exact P|exact Q|exact LA|]. rewrite <- H0. exact RG.
        * apply relative_target in T; [|exact P0]. cbn [SpecMips.word_ref ld_relative ld_label] in T.
          apply (st_distance s s2 f t u a b); [symmetry; exact H0|exact P|rewrite (proj2 (Z.eqb_neq _ _) P0); exact Q|exact P0|exact T|]. rewrite <- H0. exact RG.
      + destruct (G _ _ _ _ _ _ (eq_sym H0) ltac:(rewrite <- H0; exact NB)) as (_ & ED & P & Q & al & u & T & RG & SL).
        apply (DONE (u / 4)); [|intros v' EV'; apply SL; rewrite EV'; cbn [quarter]; rewrite shiftr_div by lia; reflexivity].
        rewrite ED, <- H0 in T, RG. cbn [ppc_ref] in T, RG. apply absolute_target in T; [|reflexivity]. destruct T as [-> LA].
        apply (st_address s s2 f t al a b); [left; symmetry; exact H0|exact P|exact Q|exact LA|]. rewrite <- H0. exact RG.
  Qed.
End Linked.

(** ** Branches *)

Definition is_target (o : operand) : bool := match o with Distance | Address => true | _ => false end.
Definition aa_of (o : operand) : Z := match o with Address => 1 | _ => 0 end.
Definition branch_ok (f : form) : bool :=
  let '(w, fs) := f in
  match fs with
  | [(o, a, b)] => if is_target o then ((a =? 6) && (b =? 29) && (w / 4 =? 18 * 2 ^ 24) || (a =? 16) && (b =? 29) && (w / 2 ^ 26 =? 16) && (w / 4 mod 2 ^ 14 =? 0)) &&
      (w / 2 mod 2 =? aa_of o) else true
  | [f; g; (o, a, b)] => if is_target o then field_eqb f BO && field_eqb g BI && (a =? 16) && (b =? 29) && (w / 4 =? 16 * 2 ^ 24) && (w / 2 mod 2 =? aa_of o) else true
  | _ => forallb (fun '(o, _, _) => negb (is_target o)) fs
  end.
Definition all_branches : bool := forallb (fun '(n, f) => branch_ok f && (forallb (fun '(o, _, _) => negb (is_target o)) (snd f) || negb (devb n (length (snd f))))) manual.
Lemma branches_true : all_branches = true.
Proof. vm_cast_no_check (eq_refl true). Qed.
Strategy expand [all_branches].

Lemma sign_small : forall n u, 0 < n -> - 2 ^ (n - 1) <= u < 2 ^ (n - 1) -> sign n u = u.
Proof.
  intros n u NN U. unfold sign. cbv zeta. assert (E : 2 ^ n = 2 * 2 ^ (n - 1)) by (rewrite <- Z.pow_succ_r by lia; f_equal; lia).
  destruct (Z.lt_ge_cases u 0) as [N|N].
  - replace (u mod 2 ^ n) with (u + 2 ^ n) by (symmetry; rewrite <- (Z.mod_small (u + 2 ^ n) (2 ^ n)) by lia; replace (u + 2 ^ n) with (u + 1 * 2 ^ n) by lia; symmetry; apply Z.mod_add; lia).
    rewrite (proj2 (Z.ltb_ge _ _)) by lia. lia.
  - rewrite (Z.mod_small u) by lia. rewrite (proj2 (Z.ltb_lt _ _)) by lia. reflexivity.
Qed.
Lemma sign_mod : forall n v m, v mod 2 ^ n = m mod 2 ^ n -> sign n v = sign n m.
Proof. intros n v m E. unfold sign. rewrite E. reflexivity. Qed.
Lemma goes_far : forall a v o u, v = 18 * 2 ^ 26 + (u mod 2 ^ 24) * 4 + v mod 4 -> v / 2 mod 2 = aa_of o -> - 2 ^ 23 <= u < 2 ^ 23 ->
  goes a v = Some (match o with Address => 0 | _ => a end + 4 * u).
Proof.
  intros a v o u E AA U. pose proof (Z.mod_pos_bound u (2 ^ 24) ltac:(lia)) as UB. pose proof (Z.mod_pos_bound v 4 ltac:(lia)) as VB. unfold goes. rewrite AA.
  assert (D : v / 2 ^ 26 = 18) by (symmetry; apply (Z.div_unique v (2 ^ 26) 18 ((u mod 2 ^ 24) * 4 + v mod 4)); lia). rewrite D. change (18 =? 18) with true. cbv iota.
  assert (S : sign 24 (v / 4) = u).
  { rewrite (sign_mod 24 _ u); [apply sign_small; [lia|exact U]|]. assert (Q : v / 4 = 18 * 2 ^ 24 + u mod 2 ^ 24) by (symmetry; apply (Z.div_unique v 4 _ (v mod 4)); lia).
    rewrite Q, Z.add_comm, Z.mod_add, Z.mod_mod by lia. reflexivity. }
  rewrite S. destruct o; reflexivity.
Qed.
Lemma goes_near : forall a v o u h, v = h * 2 ^ 16 + (u mod 2 ^ 14) * 4 + v mod 4 -> h / 2 ^ 10 = 16 -> v / 2 mod 2 = aa_of o -> - 2 ^ 13 <= u < 2 ^ 13 ->
  goes a v = Some (match o with Address => 0 | _ => a end + 4 * u).
Proof.
  intros a v o u h E HH AA U. pose proof (Z.mod_pos_bound u (2 ^ 14) ltac:(lia)) as UB. pose proof (Z.mod_pos_bound v 4 ltac:(lia)) as VB. unfold goes. rewrite AA.
  assert (Q16 : v / 2 ^ 16 = h) by (symmetry; apply (Z.div_unique v (2 ^ 16) h ((u mod 2 ^ 14) * 4 + v mod 4)); lia).
  assert (D : v / 2 ^ 26 = 16) by (change (2 ^ 26) with (2 ^ 16 * 2 ^ 10); rewrite <- Z.div_div by lia; rewrite Q16; exact HH).
  rewrite D. change (16 =? 18) with false. change (16 =? 16) with true. cbv iota.
  assert (S : sign 14 (v / 4) = u).
  { rewrite (sign_mod 14 _ u); [apply sign_small; [lia|exact U]|]. assert (Q : v / 4 = h * 2 ^ 14 + u mod 2 ^ 14) by (symmetry; apply (Z.div_unique v 4 _ (v mod 4)); lia).
    rewrite Q, Z.add_comm, Z.mod_add, Z.mod_mod by lia. reflexivity. }
  rewrite S. destruct o; reflexivity.
Qed.

Lemma branch_goes : forall n w pre o a b xs u at_, In (n, (w, pre ++ [(o, a, b)])) manual -> is_target o = true -> length xs = length pre ->
  - 2 ^ (width (o, a, b) - 1) <= u < 2 ^ (width (o, a, b) - 1) ->
  goes at_ (filled w (pre ++ [(o, a, b)]) (xs ++ [u])) = Some (match o with Address => 0 | _ => at_ end + 4 * u).
Proof.
  intros n w pre o a b xs u at_ M TG L U. pose proof branches_true as H. unfold all_branches in H. rewrite forallb_forall in H. apply H in M. clear H.
  apply andb_prop in M. destruct M as [M _]. unfold branch_ok in M. cbn [width] in U.
  destruct pre as [|p1 [|p2 [|p3 pre]]]; cbn [app] in M.
  - rewrite TG in M. apply andb_prop in M. destruct M as [M AA]. apply Z.eqb_eq in AA. destruct xs; [|discriminate L]. cbn [app filled]. unfold put.
    apply orb_prop in M. destruct M as [M|M]; rewrite !andb_true_iff, !Z.eqb_eq in M.
    + destruct M as [[-> ->] M]. change (29 - 6 + 1 - 1) with 23 in U. change (29 - 6 + 1) with 24. change (31 - 29) with 2. change (2 ^ 2) with 4.
      pose proof (Z.div_mod w 4 ltac:(lia)) as DM. apply goes_far; [| |exact U].
      * rewrite Z.mod_add by lia. lia.
      * replace (w + u mod 2 ^ 24 * 4) with (w + u mod 2 ^ 24 * 2 * 2) by lia. rewrite Z.div_add by lia. rewrite Z.mod_add by lia. exact AA.
    + destruct M as [[[-> ->] M] M2]. change (29 - 16 + 1 - 1) with 13 in U. change (29 - 16 + 1) with 14. change (31 - 29) with 2. change (2 ^ 2) with 4.
      pose proof (Z.div_mod w 4 ltac:(lia)) as DM. pose proof (Z.div_mod (w / 4) (2 ^ 14) ltac:(lia)) as DM2. rewrite Z.div_div in DM2 by lia. change (4 * 2 ^ 14) with (2 ^ 16) in DM2.
      apply (goes_near _ _ _ _ (w / 2 ^ 16)); [| | |exact U].
      * rewrite Z.mod_add by lia. lia.
      * rewrite Z.div_div by lia. exact M.
      * replace (w + u mod 2 ^ 14 * 4) with (w + u mod 2 ^ 14 * 2 * 2) by lia. rewrite Z.div_add by lia. rewrite Z.mod_add by lia. exact AA.
  - destruct p1 as [[o1 a1] b1]. cbn [forallb] in M. rewrite TG in M. cbn [negb andb] in M. rewrite andb_false_r in M. discriminate M.
  - destruct p1 as [[o1 a1] b1]. rewrite TG in M. rewrite !andb_true_iff, !Z.eqb_eq in M. set (p1 := (o1, a1, b1)) in *. destruct M as [[[[[F G] ->] ->] M] AA].
    clearbody p1. assert (p1 = BO /\ p2 = BI) as [-> ->].
    { assert (E : fields_eqb [p1; p2] [BO; BI] = true) by (cbn [fields_eqb]; rewrite F, G; reflexivity). apply fields_eqb_eq in E. injection E as -> ->. auto. }
    destruct xs as [|x [|y [|z xs]]]; try discriminate L. cbn [app filled BO BI]. unfold put.
    change (29 - 16 + 1 - 1) with 13 in U. change (29 - 16 + 1) with 14. change (31 - 29) with 2. change (2 ^ 2) with 4. change (10 - 6 + 1) with 5. change (15 - 11 + 1) with 5.
    change (31 - 10) with 21. change (31 - 15) with 16.
    pose proof (Z.mod_pos_bound x (2 ^ 5) ltac:(lia)) as XB. pose proof (Z.mod_pos_bound y (2 ^ 5) ltac:(lia)) as YB. set (xm := x mod 2 ^ 5) in *. set (ym := y mod 2 ^ 5) in *.
    pose proof (Z.div_mod w 4 ltac:(lia)) as DM.
    apply (goes_near _ _ _ _ (16 * 2 ^ 10 + xm * 2 ^ 5 + ym)); [| | |exact U].
    + replace (w + xm * 2 ^ 21 + ym * 2 ^ 16 + u mod 2 ^ 14 * 4) with (w + (xm * 2 ^ 19 + ym * 2 ^ 14 + u mod 2 ^ 14) * 4) at 2 by lia. rewrite Z.mod_add by lia. lia.
    + symmetry. apply (Z.div_unique _ (2 ^ 10) 16 (xm * 2 ^ 5 + ym)); lia.
    + replace (w + xm * 2 ^ 21 + ym * 2 ^ 16 + u mod 2 ^ 14 * 4) with (w + (xm * 2 ^ 19 + ym * 2 ^ 14 + u mod 2 ^ 14) * 2 * 2) by lia. rewrite Z.div_add by lia. rewrite Z.mod_add by lia. exact AA.
  - exfalso. assert (M2 : forallb (fun '(o, _, _) => negb (is_target o)) (p1 :: p2 :: p3 :: pre ++ [(o, a, b)]) = true).
    { destruct p1 as [[]], p2 as [[]], p3 as [[]]. destruct pre; cbn [app] in *; exact M. }
    rewrite forallb_forall in M2. specialize (M2 (o, a, b) (or_intror (or_intror (or_intror (in_or_app pre [(o, a, b)] (o, a, b) (or_intror (or_introl eq_refl))))))). cbv beta iota in M2. rewrite TG in M2. discriminate M2.
Qed.
Lemma branch_widths : forall n w pre o a b, In (n, (w, pre ++ [(o, a, b)])) manual -> is_target o = true ->
  (width (o, a, b) = 24 \/ width (o, a, b) = 14) /\ ~ In (n, length (pre ++ [(o, a, b)])) deviating.
Proof.
  intros n w pre o a b M TG. pose proof branches_true as H. unfold all_branches in H. rewrite forallb_forall in H. apply H in M. clear H.
  apply andb_prop in M. destruct M as [M D]. split.
  - unfold branch_ok in M. cbn [width]. destruct pre as [|p1 [|p2 [|p3 pre]]]; cbn [app] in M.
    + rewrite TG in M. apply andb_prop in M. destruct M as [M _]. apply orb_prop in M. destruct M as [M|M]; rewrite !andb_true_iff, !Z.eqb_eq in M; lia.
    + destruct p1 as [[o1 a1] b1]. cbn [forallb] in M. rewrite TG in M. cbn [negb andb] in M. rewrite andb_false_r in M. discriminate M.
    + destruct p1 as [[o1 a1] b1]. rewrite TG in M. rewrite !andb_true_iff, !Z.eqb_eq in M. lia.
    + exfalso. assert (M2 : forallb (fun '(o, _, _) => negb (is_target o)) (p1 :: p2 :: p3 :: pre ++ [(o, a, b)]) = true).
      { destruct p1 as [[]], p2 as [[]], p3 as [[]]. destruct pre; cbn [app] in *; exact M. }
      rewrite forallb_forall in M2. specialize (M2 (o, a, b) (or_intror (or_intror (or_intror (in_or_app pre [(o, a, b)] (o, a, b) (or_intror (or_introl eq_refl))))))). cbv beta iota in M2. rewrite TG in M2. discriminate M2.
  - cbn [snd] in D. apply orb_prop in D. destruct D as [D|D].
    + rewrite forallb_forall in D. specialize (D (o, a, b) (in_or_app pre [(o, a, b)] (o, a, b) (or_intror (or_introl eq_refl)))). cbv beta iota in D. rewrite TG in D. discriminate D.
    + intros X. apply devb_In in X. apply negb_true_iff in D. exact (eq_true_false_abs _ X D).
Qed.
