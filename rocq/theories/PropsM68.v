(** C58 68000 encodings, C59 linked 68000 operands, C60 68000 branches; C39 and C46 for the 68000. *)
From Coq Require Import Lia.
From Verif Require Import Reach.
From Verif Require Import Py PyFacts Utils Tokenizer State Assembler SpecUtils SpecParse SpecSubst SpecExec SpecLink
  UtilsFacts ParseFacts SpecCpu SpecPlace SpecPlat Instr Mc68000 Platform CpuFacts WordFacts LabelMono Demo
  PropsPlace PropsMosLink PropsFit PropsPlat FitFacts.
From Verif Require Import SpecM68 M68Lex M68Facts M68Ops M68Names M68Link FitM68.
Local Open Scope Z_scope.

(** ** C58: encodings *)

(** An instruction in the notation of the manual is accepted exactly if its numbers fit, and
    then gives the words of its form, with references for the names. *)
Theorem C58_encoding : forall e s words t0 ops items fuel l s', opcode_stmt (mc68000 e) s words t0 ops -> 0 <= pc s ->
  form true t0 ops items ->
  exec (mc68000 e) fuel [Stmt KInstruction words l] s = (s', Ok tt) <->
  exists b ds, stored_items mc_p s 0 items b ds /\ emitted (referring s ds) b s'.
Proof.
  intros e s words t0 ops items fuel l s' OS PC F. rewrite (exec_opcode _ _ _ _ _ _ _ OS), mc_key.
  pose proof (mc_lookup e t0) as L. destruct (form_complete _ _ _ F) as [(w & -> & -> & D & ST)|(k & D & DL)]; rewrite D in L; cbn [option_map] in L.
  - rewrite (static_result _ _ _ _ _ _ _ L), ST. split.
    + intros [_ E]. exists (msb 2 w), []. split; [|exact E]. rewrite <- (app_nil_r (msb 2 w)). change (@nil labeldata) with (@nil labeldata ++ []).
      econstructor; constructor.
    + intros (b & ds & I & E). split; [reflexivity|]. inversion I as [|? ? ? b1 b2 d1 d2 I1 I2]; subst. inversion I1; subst. inversion I2; subst.
      rewrite app_nil_r in E. exact E.
  - rewrite (fun_result _ _ _ _ _ _ L). specialize (DL s PC). split.
    + intros (b & E & EM). destruct (mc_run k (t0 :: ops) s) as [s1 r] eqn:R. cbn [fst snd] in *. subst r.
      apply DL in R. destruct R as (ds & I & ->). eauto.
    + intros (b & ds & I & EM). exists b. rewrite (proj2 (DL (referring s ds) b)) by eauto. auto.
Qed.
Print Assumptions C58_encoding.

(** What is accepted at all is in the notation of the manual, or in one of the listed
    variants of it, or has something after the operands that is not looked at. *)
Theorem C58_accepted : forall e s words t0 ops fuel l s', opcode_stmt (mc68000 e) s words t0 ops -> 0 <= pc s ->
  exec (mc68000 e) fuel [Stmt KInstruction words l] s = (s', Ok tt) ->
  exists pre rest items b ds, ops = pre ++ rest /\ form false t0 pre items /\ (rest = [] \/ open_ended t0) /\
    stored_items mc_p s 0 items b ds /\ emitted (referring s ds) b s'.
Proof.
  intros e s words t0 ops fuel l s' OS PC H. rewrite (exec_opcode _ _ _ _ _ _ _ OS), mc_key in H.
  pose proof (mc_lookup e t0) as L. destruct (dget str_eqb mc_table (lower t0)) as [[k|]|] eqn:D; cbn [option_map] in L.
  - apply (fun_result _ _ _ _ _ _ L) in H. destruct H as (b & E & EM). destruct (mc_run k (t0 :: ops) s) as [s1 r] eqn:R. cbn [fst snd] in *. subst r.
    apply (form_sound t0 k D) in R; [|exact PC]. destruct R as (items & ds & (pre & rest & -> & F & O) & I & ->).
    exists pre, rest, items, b, ds. auto.
  - apply (static_result _ _ _ _ _ _ _ L) in H. destruct H as [-> EM].
    assert (X : exists w, form false t0 [] [Fixed w] /\ mc_static (lower t0) = msb 2 w).
    { apply (PyFacts.dget_In str_eqb str_eqb_eq) in D. unfold mc_table in D. apply in_app_or in D. destruct D as [[D|[D|[]]]|D].
      - injection D as D. exists 0x4E75. split; [apply f_rts; auto|rewrite <- D; reflexivity].
      - injection D as D. exists 0x4E71. split; [apply f_nop; auto|rewrite <- D; reflexivity].
      - apply in_flat_map in D. destruct D as ((ns & k) & _ & D). apply in_map_iff in D. destruct D as (n & D & _). discriminate D. }
    destruct X as (w & F & E). exists [], [], [Fixed w], (msb 2 w), []. split; [reflexivity|]. split; [exact F|]. split; [auto|].
    rewrite <- E. split; [|exact EM]. rewrite E, <- (app_nil_r (msb 2 w)). change (@nil labeldata) with (@nil labeldata ++ []). econstructor; constructor.
  - apply unknown_result in H; [destruct H|exact L].
Qed.
Print Assumptions C58_accepted.

(** The notation of the manual is unambiguous. *)
Theorem C58_deterministic : forall s t0 ops items1 items2 b1 b2 ds1 ds2, 0 <= pc s ->
  form true t0 ops items1 -> form true t0 ops items2 ->
  stored_items mc_p s 0 items1 b1 ds1 -> stored_items mc_p s 0 items2 b2 ds2 ->
  b1 = b2 /\ referring s ds1 = referring s ds2.
Proof.
  intros s t0 ops items1 items2 b1 b2 ds1 ds2 PC F1 F2 S1 S2.
  destruct (form_complete _ _ _ F1) as [(w & -> & -> & D & ST)|(k & D & DL)], (form_complete _ _ _ F2) as [(w2 & -> & _ & D2 & ST2)|(k2 & D2 & DL2)];
    rewrite D in D2; try discriminate.
  - inversion S1 as [|? ? ? ? ? ? ? I1 J1]; subst. inversion I1; subst. inversion J1; subst.
    inversion S2 as [|? ? ? ? ? ? ? I2 J2]; subst. inversion I2; subst. inversion J2; subst. rewrite ST in ST2. rewrite ST2. auto.
  - injection D2 as <-. assert (X1 : mc_run k (t0 :: ops) s = (referring s ds1, Ok (Some b1))) by (apply (DL s PC); eauto).
    assert (X2 : mc_run k (t0 :: ops) s = (referring s ds2, Ok (Some b2))) by (apply (DL2 s PC); eauto).
    rewrite X1 in X2. injection X2 as -> ->. auto.
Qed.
Print Assumptions C58_deterministic.

(** ** C59: linked operands *)

(** In the linked image the instruction consists of the words of its form, numbers by their
    value, names by their address or distance, which fits. *)
Lemma refs_of : forall s t0 strict ops items b ds, form strict t0 ops items -> stored_items mc_p s 0 items b ds ->
  Forall sound_ref ds /\ placed (zlen b) ds.
Proof.
  intros s t0 strict ops items b ds F ST. destruct (stored_refs _ _ _ _ _ ST (form_fit _ _ _ _ F) ltac:(lia)) as (A1 & A2 & A3).
  split; [exact A1|]. split; [exact A2|exact A3].
Qed.
Lemma items_linked : forall e fuel text s0 s x s1 s2 s3 b ds t0 strict ops items,
  let c := mc68000 e in
  byte_files c -> sane s0 -> passes_through c fuel text s0 s x s1 s2 -> emitted (referring s ds) b s1 ->
  form strict t0 ops items -> stored_items mc_p s 0 items b ds -> 0 <= pc s -> short_texts c s2 ->
  link c dummy_linker s2 = (s3, Ok tt) ->
  exists b', settled_items mc_p s s2 0 items b' /\ slice (zlen (assembled s)) (zlen b') (assembled s3) = b'.
Proof.
  intros e fuel text s0 s x s1 s2 s3 b ds t0 strict ops items c B SN H EM F ST PC NT LK.
  destruct (mc68000_fits e) as [FI N]. destruct (refs_of _ _ _ _ _ _ _ F ST) as [SR PL].
  destruct (linked_items c fuel text s0 s x s1 s2 s3 b ds FI N B SN H EM SR PL NT LK eq_refl PC items 0 b ds ST (form_fit _ _ _ _ F) [] [])
    as (b' & S & L & SL); auto.
  exists b'. split; [exact S|]. rewrite L. rewrite Z.add_0_r in SL. exact SL.
Qed.
Theorem C59_linked : forall e fuel text s0 s words l s1 s2 s3 t0 ops items,
  let c := mc68000 e in
  byte_files c -> sane s0 ->
  passes_through c fuel text s0 s (Stmt KInstruction words l) s1 s2 ->
  opcode_stmt c s words t0 ops -> form true t0 ops items -> 0 <= pc s -> short_texts c s2 ->
  link c dummy_linker s2 = (s3, Ok tt) ->
  exists b, settled_items mc_p s s2 0 items b /\ slice (zlen (assembled s)) (zlen b) (assembled s3) = b.
Proof.
  intros e fuel text s0 s words l s1 s2 s3 t0 ops items c B SN H OS F PC NT LK.
  pose proof H as H'. destruct H' as (_ & _ & _ & _ & X & _).
  apply (C58_encoding _ _ _ _ _ _ _ _ _ OS PC F) in X. destruct X as (b & ds & ST & EM).
  eapply items_linked; eauto.
Qed.
Print Assumptions C59_linked.

(** ** C60: branches and distances *)

Lemma settled_size : forall s s2 off i b, settled_item mc_p s s2 off i b -> zlen b = item_size i.
Proof. intros s s2 off i b []; rewrite msb_zlen; reflexivity. Qed.
Lemma settled_at : forall s s2 pre off i post b, settled_items mc_p s s2 off (pre ++ i :: post) b ->
  exists b1 bi b2, b = b1 ++ bi ++ b2 /\ zlen b1 = items_size pre /\ settled_item mc_p s s2 (off + items_size pre) i bi.
Proof.
  intros s s2 pre. induction pre as [|j pre IH]; intros off i post b H; cbn [app] in H; inversion H as [|? ? ? bj bs S1 S2]; subst.
  - exists [], bj, bs. split; [reflexivity|]. split; [reflexivity|]. cbn [items_size fold_right]. rewrite Z.add_0_r. exact S1.
  - apply IH in S2. destruct S2 as (b1 & bi & b2 & -> & L & S2). exists (bj ++ b1), bi, b2. rewrite <- !app_assoc. split; [reflexivity|].
    rewrite zlen_app. cbn [items_size fold_right]. fold (items_size pre). rewrite (settled_size _ _ _ _ _ S1) in *. split; [lia|].
    rewrite Z.add_assoc. exact S2.
Qed.

Lemma app_same : forall A (l1 m1 l2 m2 : list A), zlen l1 = zlen m1 -> l1 ++ l2 = m1 ++ m2 -> l1 = m1 /\ l2 = m2.
Proof.
  induction l1 as [|x l1 IH]; intros [|y m1] l2 m2 L E; try (unfold zlen in L; cbn [length] in L; lia); auto.
  injection E as -> E. apply IH in E; [|unfold zlen in *; cbn [length] in L; lia]. destruct E as [-> ->]. auto.
Qed.
Lemma slice_mid : forall (l b1 bi b2 : bytes) a, 0 <= a -> slice a (zlen (b1 ++ bi ++ b2)) l = b1 ++ bi ++ b2 ->
  slice (a + zlen b1) (zlen bi) l = bi.
Proof.
  intros l b1 bi b2 a A SL. pose proof (f_equal zlen SL) as LN.
  assert (B1 : 0 <= zlen b1) by apply zlen_nonneg. assert (BI : 0 <= zlen bi) by apply zlen_nonneg. assert (B2 : 0 <= zlen b2) by apply zlen_nonneg.
  assert (E : a + zlen (b1 ++ bi ++ b2) <= zlen l \/ zlen (b1 ++ bi ++ b2) <= 0).
  { unfold slice in LN. unfold zlen in *. rewrite firstn_length, skipn_length in LN. lia. }
  rewrite !zlen_app in *. destruct E as [E|E].
  - rewrite slice_split in SL by lia. apply app_same in SL; [|apply slice_length; lia]. destruct SL as [_ SL].
    rewrite slice_split in SL by lia. apply app_same in SL; [|apply slice_length; lia]. apply SL.
  - assert (bi = []) as -> by (destruct bi; [reflexivity|unfold zlen in *; cbn [length] in *; lia]). unfold slice. reflexivity.
Qed.

(** The distance to a label written by any part of an instruction leads to the label, counted
    from where the processor counts it. *)
Theorem C60_lands : forall e fuel text s0 s words l s1 s2 s3 t0 ops pre sl k t post,
  let c := mc68000 e in
  byte_files c -> sane s0 ->
  passes_through c fuel text s0 s (Stmt KInstruction words l) s1 s2 ->
  opcode_stmt c s words t0 ops -> form true t0 ops (pre ++ Val sl t :: post) -> sl_from sl = Some k ->
  not_num mc_p s t (sl_bits sl) (sl_signed sl) -> no_select t -> no_ops t -> t <> [] -> 0 <= pc s -> short_texts c s2 ->
  link c dummy_linker s2 = (s3, Ok tt) ->
  exists a v, address_of (labels s2) t a /\ (sl_align sl | a) /\
    slice (zlen (assembled s) + items_size pre) (Z.of_nat (sl_bytes sl)) (assembled s3) =
      msb (sl_bytes sl) (rest_of sl + v mod 2 ^ sl_bits sl) /\
    - 2 ^ (sl_bits sl - 1) <= v < 2 ^ (sl_bits sl - 1) /\
    (pc s + items_size pre + k) + v = a.
Proof.
  intros e fuel text s0 s words l s1 s2 s3 t0 ops pre sl k t post c B SN H OS F FR NN NS NO NE PC NT LK.
  destruct (C59_linked e fuel text s0 s words l s1 s2 s3 t0 ops _ B SN H OS F PC NT LK) as (b & S & SL).
  apply settled_at in S. destruct S as (b1 & bi & b2 & -> & L & S). cbn [Z.add] in S.
  pose proof (settled_size _ _ _ _ _ S) as LI. cbn [item_size] in LI.
  inversion S as [|? ? v NU|? ? a NN' FR'|? ? k' a v NN' FR' LA AL LR RG]; subst; [unfold num, not_num in *; congruence|congruence|].
  assert (k' = k) by congruence. subst k'.
  destruct (plain_relative _ _ _ _ _ NS NO NE LR) as (a' & A & ->).
  assert (AA : a = a').
  { rewrite label_absolute_relative in LA. destruct (plain_relative _ _ _ _ _ NS NO NE LA) as (a2 & (l2 & D2 & E2) & ->).
    destruct A as (l1 & D1 & E1). rewrite D2 in D1. injection D1 as ->. lia. }
  exists a', (a' - (pc s + items_size pre + k)). split; [exact A|]. split; [rewrite <- AA; exact AL|]. split; [|split; [exact RG|lia]].
  apply slice_mid in SL; [|apply zlen_nonneg]. rewrite LI, L in SL. exact SL.
Qed.
Print Assumptions C60_lands.
(** A target out of reach, or not defined anywhere, does not link. *)
Theorem C60_too_far : forall e fuel text s0 s words l s1 s2 t0 ops pre sl k t post,
  let c := mc68000 e in
  byte_files c -> sane s0 ->
  passes_through c fuel text s0 s (Stmt KInstruction words l) s1 s2 ->
  opcode_stmt c s words t0 ops -> form true t0 ops (pre ++ Val sl t :: post) -> sl_from sl = Some k ->
  not_num mc_p s t (sl_bits sl) (sl_signed sl) -> no_select t -> no_ops t -> t <> [] -> 0 <= pc s -> short_texts c s2 ->
  (forall a, address_of (labels s2) t a -> ~ - 2 ^ (sl_bits sl - 1) <= a - (pc s + items_size pre + k) < 2 ^ (sl_bits sl - 1)) ->
  snd (link c dummy_linker s2) <> Ok tt.
Proof.
  intros e fuel text s0 s words l s1 s2 t0 ops pre sl k t post c B SN H OS F FR NN NS NO NE PC NT FAR LK.
  destruct (link c dummy_linker s2) as [s3 r] eqn:E. cbn [snd] in LK. subst r.
  destruct (C60_lands e fuel text s0 s words l s1 s2 s3 t0 ops pre sl k t post B SN H OS F FR NN NS NO NE PC NT E) as (a & v & A & _ & _ & RG & EQ).
  apply (FAR a A). replace (a - (pc s + items_size pre + k)) with v by lia. exact RG.
Qed.
Print Assumptions C60_too_far.

Definition sign16 (x : Z) : Z := if x <? 32768 then x else x - 65536.
Lemma sign16_mod : forall v, -32768 <= v < 32768 -> sign16 (v mod 65536) = v.
Proof.
  intros v R. unfold sign16. destruct (Z.ltb_spec v 0).
  - replace (v mod 65536) with (v + 65536) by (rewrite <- (Z.mod_add v 1 65536), Z.mod_small by lia; lia).
    replace (v + 65536 <? 32768) with false by lia. lia.
  - rewrite Z.mod_small by lia. replace (v <? 32768) with true by lia. reflexivity.
Qed.
Lemma halves : forall v, exists h l, msb 2 (v mod 65536) = [h; l] /\ is_byte h /\ is_byte l /\ h * 256 + l = v mod 65536.
Proof.
  intros v. pose proof (Z.mod_pos_bound v 65536 ltac:(lia)) as B. remember (v mod 65536) as u. exists ((u / 256) mod 256), (u mod 256).
  split; [reflexivity|]. split; [apply Z.mod_pos_bound; lia|]. split; [apply Z.mod_pos_bound; lia|].
  rewrite (Z.mod_small (u / 256)) by (split; [apply Z.div_pos; lia|apply Z.div_lt_upper_bound; lia]).
  pose proof (Z.div_mod u 256 ltac:(lia)). lia.
Qed.

Lemma word_branch : forall e fuel text s0 s words l s1 s2 s3 t0 ops w t,
  let c := mc68000 e in
  byte_files c -> sane s0 ->
  passes_through c fuel text s0 s (Stmt KInstruction words l) s1 s2 ->
  opcode_stmt c s words t0 ops -> form true t0 ops [Fixed w; Val branch16 t] ->
  not_num mc_p s t 16 true -> no_select t -> no_ops t -> t <> [] -> 0 <= pc s -> short_texts c s2 ->
  link c dummy_linker s2 = (s3, Ok tt) ->
  exists a h lo, address_of (labels s2) t a /\ (2 | a) /\
    slice (zlen (assembled s)) 4 (assembled s3) = msb 2 w ++ [h; lo] /\ is_byte h /\ is_byte lo /\
        (pc s + 2) + sign16 (h * 256 + lo) = a.
Proof.
  intros e fuel text s0 s words l s1 s2 s3 t0 ops w t c B SN H OS F NN NS NO NE PC NT LK.
  destruct (C59_linked e fuel text s0 s words l s1 s2 s3 t0 ops _ B SN H OS F PC NT LK) as (b & S & SB).
  destruct (C60_lands e fuel text s0 s words l s1 s2 s3 t0 ops [Fixed w] branch16 0 t [] B SN H OS F eq_refl NN NS NO NE PC NT LK) as (a & v & A & AL & SL & RG & EQ).
  inversion S as [|? ? ? b1 b2 S1 S2]; subst b. inversion S1. subst b1. inversion S2 as [|? ? ? b3 b4 S3 S4]; subst b2. inversion S4. subst b4.
  pose proof (settled_size _ _ _ _ _ S3) as L3. cbn [item_size] in L3. rewrite app_nil_r in SB.
  assert (SB3 : slice (zlen (assembled s) + 2) 2 (assembled s3) = b3).
  { pose proof (slice_mid (assembled s3) (msb 2 w) b3 [] (zlen (assembled s)) ltac:(apply zlen_nonneg)) as X. rewrite app_nil_r in X. specialize (X SB).
    rewrite L3 in X. exact X. }
  change (items_size [Fixed w]) with 2 in *. change (Z.of_nat (sl_bytes branch16)) with 2 in SL. rewrite SB3 in SL.
  unfold rest_of in SL. cbn [branch16 sl_bytes sl_bits sl_word Z.add] in SL. change (2 ^ 16) with 65536 in SL. change (sl_bits branch16 - 1) with 15 in RG. change (2 ^ 15) with 32768 in RG.
  destruct (halves v) as (h & lo & E1 & E2 & E3 & E4). exists a, h, lo. rewrite SL, E1 in SB. rewrite zlen_app, msb_zlen in SB. change (zlen [h; lo]) with 2 in SB.
  change (Z.of_nat 2 + 2) with 4 in SB. split; [exact A|]. split; [exact AL|]. split; [exact SB|]. split; [exact E2|]. split; [exact E3|].
  rewrite E4, sign16_mod by lia. lia.
Qed.
Lemma two_parts : forall x y, 0 <= x < 256 -> 0 <= y < 256 -> msb 2 (x * 256 + y) = [x; y].
Proof.
  intros x y X Y. cbn [msb app]. rewrite Z.add_comm, Z.div_add, Z.mod_add, (Z.div_small y), !Z.mod_small by lia. reflexivity.
Qed.

(** Conditional branches and loops land on the label, which is even, counted from the
    instruction plus two. *)
Theorem C60_branch : forall e fuel text s0 s words l s1 s2 s3 t0 name cc sz t,
  let c := mc68000 e in
  byte_files c -> sane s0 ->
  passes_through c fuel text s0 s (Stmt KInstruction words l) s1 s2 ->
  opcode_stmt c s words t0 [t] -> In (name, cc) cond_names -> sized t0 (#"b" ++ name) sz -> sz = 1 \/ sz = 2 -> value true t ->
  not_num mc_p s t (8 * sz) true -> no_select t -> no_ops t -> t <> [] -> 0 <= pc s -> short_texts c s2 ->
  link c dummy_linker s2 = (s3, Ok tt) ->
  exists a, address_of (labels s2) t a /\ (2 | a) /\
    ((sz = 1 /\ exists d, slice (zlen (assembled s)) 2 (assembled s3) = [0x60 + cc; d] /\ is_byte d /\ (pc s + 2) + sign8 d = a) \/
     (sz = 2 /\ exists h lo, slice (zlen (assembled s)) 4 (assembled s3) = [0x60 + cc; 0; h; lo] /\ is_byte h /\ is_byte lo /\
        (pc s + 2) + sign16 (h * 256 + lo) = a)).
Proof.
  intros e fuel text s0 s words l s1 s2 s3 t0 name cc sz t c B SN H OS I SZ Z V NN NS NO NE PC NT LK.
  pose proof (cond_range name cc (or_intror I)) as CR. destruct Z as [-> | ->].
  - pose proof (f_branch8 true t0 name cc t I SZ V) as F.
    destruct (C60_lands e fuel text s0 s words l s1 s2 s3 t0 [t] [] _ 2 t [] B SN H OS F eq_refl NN NS NO NE PC NT LK) as (a & v & A & AL & SL & RG & EQ).
    exists a. split; [exact A|]. split; [exact AL|]. left. split; [reflexivity|]. exists (v mod 256).
    pose proof (Z.mod_pos_bound v 256 ltac:(lia)) as VB.
    change (items_size []) with 0 in *. change (Z.of_nat (sl_bytes (branch8 (0x6000 + cc * 256)))) with 2 in SL. rewrite Z.add_0_r in SL. rewrite SL.
    change (msb 2 (0x6000 + cc * 256 + v mod 256) = [96 + cc; v mod 256] /\ is_byte (v mod 256) /\ pc s + 2 + sign8 (v mod 256) = a).
    replace (0x6000 + cc * 256 + v mod 256) with ((96 + cc) * 256 + v mod 256) by ring.
    change (- 128 <= v < 128) in RG. rewrite two_parts, sign8_mod by lia. split; [reflexivity|]. split; [exact VB|lia].
  - pose proof (f_branch16 true t0 name cc t I SZ V) as F.
    destruct (word_branch e fuel text s0 s words l s1 s2 s3 t0 [t] _ t B SN H OS F NN NS NO NE PC NT LK) as (a & h & lo & A & AL & SL & E2 & E3 & EQ).
    exists a. split; [exact A|]. split; [exact AL|]. right. split; [reflexivity|]. exists h, lo. rewrite SL.
    replace (0x6000 + cc * 256) with ((96 + cc) * 256 + 0) by ring. rewrite two_parts by lia. auto.
Qed.
Print Assumptions C60_branch.
Theorem C60_loop : forall e fuel text s0 s words l s1 s2 s3 t0 name cc r n t,
  let c := mc68000 e in
  byte_files c -> sane s0 ->
  passes_through c fuel text s0 s (Stmt KInstruction words l) s1 s2 ->
  opcode_stmt c s words t0 [r; t] -> In (name, cc) ((#"ra", 1) :: cond_names) -> sized t0 (#"db" ++ name) 2 -> dreg r n -> value true t ->
  not_num mc_p s t 16 true -> no_select t -> no_ops t -> t <> [] -> 0 <= pc s -> short_texts c s2 ->
  link c dummy_linker s2 = (s3, Ok tt) ->
  exists a h lo, address_of (labels s2) t a /\ (2 | a) /\
    slice (zlen (assembled s)) 4 (assembled s3) = [0x50 + cc; 0xC8 + n; h; lo] /\ is_byte h /\ is_byte lo /\
        (pc s + 2) + sign16 (h * 256 + lo) = a.
Proof.
  intros e fuel text s0 s words l s1 s2 s3 t0 name cc r n t c B SN H OS I SZ D V NN NS NO NE PC NT LK.
  pose proof (cond_range name cc I) as CR. pose proof (f_loop true t0 name cc r n t I SZ D V) as F.
  assert (NR : 0 <= n < 8).
  { unfold dreg in D. cbn [d_names In] in D. repeat (destruct D as [D|D]; [injection D as _ <-; lia|]). destruct D. }
  destruct (word_branch e fuel text s0 s words l s1 s2 s3 t0 [r; t] _ t B SN H OS F NN NS NO NE PC NT LK) as (a & h & lo & A & AL & SL & E2 & E3 & EQ).
  exists a, h, lo. rewrite SL. replace (0x50C8 + cc * 256 + n) with ((80 + cc) * 256 + (200 + n)) by ring. rewrite two_parts by lia.
  split; [exact A|]. split; [exact AL|]. split; [reflexivity|]. auto.
Qed.
Print Assumptions C60_loop.

(** ** Concrete cases *)

Definition mm := mc68000 demo_env.
Definition m_run (l : list string) : st * res unit := assemble mm 5 (lines l) (init_st []).
Definition m_bytes (l : list string) : bytes := assembled (fst (m_run l)).
Ltac is_value := split; [intros ? ?D; vm_compute in D; intuition discriminate|]; split; [intros ? ?D; vm_compute in D; intuition discriminate|];
  split; [discriminate|]; split; [discriminate|]; split; [intros ? ?; discriminate|]; intros _; split; discriminate.
Ltac is_reg := vm_compute; tauto.

Definition c58_text : str := lines [".org $1000"; "start: move.l (4,a0),-(a7)"; "ori.b #$7F,($1234).w"; "lea (tab,pc,d1.l),a3"; "bne.b start"; "dbra d2,start"; "movea.w tab,a1"; "tab: jmp (a0)"]%string.
Example C58_example :
  let s := fst (exec mm 5 (firstn 1 (stmts_of c58_text)) (init_st [])) in
  form true #"move.l" [#"("; #"4"; #"a0"; #")"; #"-"; #"("; #"a7"; #")"] [Fixed 0x2F28; Val disp16 #"4"] /\
  form true #"ori.b" [#"#$7F"; #"("; #"$1234"; #")"; #".w"] [Fixed 0x0038; Val imm8 #"$7F"; Val word16 #"$1234"] /\
  form true #"lea" [#"("; #"tab"; #"pc"; #"d1.l"; #")"; #"a3"] [Fixed 0x47FB; Val (pc_index8 0x1800) #"tab"] /\
  stored_items mc_p s 0 [Fixed 0x2F28; Val disp16 #"4"] [0x2F; 0x28; 0; 4] [] /\
  stored_items mc_p s 0 [Fixed 0x47FB; Val (pc_index8 0x1800) #"tab"] [0x47; 0xFB; 0x18; 0]
    [LabelData #"tab" 2 8 (pc s + 2) 2 1 (Some (7, 0)) None None] /\
  m_bytes ["move.l (4,a0),-(a7)"; "ori.b #$7F,($1234).w"]%string = [0x2F; 0x28; 0; 4; 0x00; 0x38; 0; 0x7F; 0x12; 0x34].
Proof.
  assert (G : forall s, not_num mc_p s #"tab" 8 true -> stored_item mc_p s 2 (Val (pc_index8 0x1800) #"tab") [0x18; 0]
    [LabelData #"tab" 2 8 (pc s + 2) 2 1 (Some (7, 0)) None None]).
  { intros s N. rewrite <- (Z.add_0_r (pc s + 2)). apply (si_name mc_p s 2 (pc_index8 0x1800) #"tab"). exact N. }
  cbv zeta.
  split; [|split; [|split; [|split; [|split]]]].
  - apply (f_move true #"move.l" 4 [#"("; #"4"; #"a0"; #")"] 5 0 [Val disp16 #"4"] [#"-"; #"("; #"a7"; #")"] 4 7 []).
    + apply sz_long. reflexivity.
    + apply ea_disp; [is_value|is_reg].
    + apply ea_pre. is_reg.
    + split; lia.
  - apply (f_imm true #"ori.b" #"ori" 0 1 #"$7F" [#"("; #"$1234"; #")"; #".w"] 7 0 [Val word16 #"$1234"]).
    + left. reflexivity.
    + apply sz_byte. reflexivity.
    + discriminate.
    + apply ea_abs_w; [is_value|left; reflexivity].
    + split; lia.
    + intros _ _ t E. discriminate E.
  - apply (f_lea true #"lea" [#"("; #"tab"; #"pc"; #"d1.l"; #")"] 7 3 [Val (pc_index8 0x1800) #"tab"] #"a3" 3).
    + left. reflexivity.
    + apply ea_pc_index; [is_value|left; reflexivity|]. apply (ix_long #"d1" 1 0 #".l"); [left; split; [is_reg|reflexivity]|reflexivity].
    + right. right. right. split; lia.
    + is_reg.
  - apply (sis_cons mc_p _ 0 (Fixed 0x2F28) _ [0x2F; 0x28] [0; 4] [] []); [apply (si_fixed mc_p _ 0 0x2F28)|].
    apply (sis_cons mc_p _ 2 (Val disp16 #"4") [] [0; 4] [] [] []); [|constructor].
    apply (si_number mc_p _ 2 disp16 #"4" 4). vm_compute. reflexivity.
  - apply (sis_cons mc_p _ 0 (Fixed 0x47FB) _ [0x47; 0xFB] [0x18; 0] []); [apply (si_fixed mc_p _ 0 0x47FB)|].
    eapply (sis_cons mc_p _ 2 (Val (pc_index8 0x1800) #"tab") [] [0x18; 0] [] [_] []); [|constructor].
    apply G. vm_compute. reflexivity.
  - vm_compute. reflexivity.
Qed.

(** A name in each of the places: a long address, a distance in a word, one in a byte. *)
(** The program of the cases below, its states and the linked image. *)
Definition m_at (n : nat) : st := fst (exec mm 5 (firstn n (stmts_of c58_text)) (init_st [])).
Definition m_stmt (n : nat) : stmt := nth n (stmts_of c58_text) (Stmt KLabel [] 0).
Definition m_end : st := fst (assemble mm 5 c58_text (init_st [])).
Example C59_example :
  byte_files mm /\ sane (init_st []) /\
  passes_through mm 5 c58_text (init_st []) (m_at 7) (m_stmt 7) (fst (exec mm 5 [m_stmt 7] (m_at 7))) m_end /\
  m_stmt 7 = Stmt KInstruction [#"movea.w"; #"tab"; #"a1"] 7 /\
  opcode_stmt mm (m_at 7) [#"movea.w"; #"tab"; #"a1"] #"movea.w" [#"tab"; #"a1"] /\
  form true #"movea.w" [#"tab"; #"a1"] [Fixed 0x3279; Val long32 #"tab"] /\ pc (m_at 7) = 0x1014 /\ no_text m_end /\
  exists s3, link mm dummy_linker m_end = (s3, Ok tt) /\
    assembled s3 = [0x2F; 0x28; 0; 4] ++ [0x00; 0x38; 0; 0x7F; 0x12; 0x34] ++ [0x47; 0xFB; 0x18; 0x0E] ++ [0x66; 0xF0] ++
      [0x51; 0xCA; 0xFF; 0xEE] ++ [0x32; 0x79; 0; 0; 0x10; 0x1A] ++ [0x4E; 0xD0].
Proof.
  split; [exact mos_files|]. split; [apply sane_init|]. split; [reached 7%nat|]. split; [vm_compute; reflexivity|].
  split; [apply plain_stmt; vm_compute; reflexivity|]. split; [|split; [vm_compute; reflexivity|split; [untexted|linked]]].
  apply (f_movea true #"movea.w" 2 [#"tab"] 7 1 [Val long32 #"tab"] #"a1" 1).
  - right. apply sz_word. reflexivity.
  - discriminate.
  - apply ea_addr; [is_value|]. intros x suf E. split; intros S;
      [pose proof (proj1 (suffix_of "w" x suf S)) as H|pose proof (proj1 (suffix_of "l" x suf S)) as H]; rewrite <- E in H; vm_compute in H; discriminate H.
  - is_reg.
Qed.
Example C60_example :
  passes_through mm 5 c58_text (init_st []) (m_at 5) (m_stmt 5) (fst (exec mm 5 [m_stmt 5] (m_at 5))) m_end /\
  m_stmt 5 = Stmt KInstruction [#"bne.b"; #"start"] 5 /\ opcode_stmt mm (m_at 5) [#"bne.b"; #"start"] #"bne.b" [#"start"] /\
  sized #"bne.b" (#"b" ++ #"ne") 1 /\ value true #"start" /\ not_num mc_p (m_at 5) #"start" 8 true /\ no_select #"start" /\ no_ops #"start" /\
  passes_through mm 5 c58_text (init_st []) (m_at 6) (m_stmt 6) (fst (exec mm 5 [m_stmt 6] (m_at 6))) m_end /\
  m_stmt 6 = Stmt KInstruction [#"dbra"; #"d2"; #"start"] 6 /\ opcode_stmt mm (m_at 6) [#"dbra"; #"d2"; #"start"] #"dbra" [#"d2"; #"start"] /\
  sized #"dbra" (#"db" ++ #"ra") 2 /\ dreg #"d2" 2 /\ not_num mc_p (m_at 6) #"start" 16 true /\
  pc (m_at 5) = 0x100E /\ address_of (labels m_end) #"start" 0x1000 /\
  0x100E + 2 + sign8 0xF0 = 0x1000 /\ 0x1010 + 2 + sign16 0xFFEE = 0x1000.
Proof.
  split; [reached 5%nat|]. split; [vm_compute; reflexivity|]. split; [apply plain_stmt; vm_compute; reflexivity|].
  split; [apply sz_byte; reflexivity|]. split; [is_value|]. split; [vm_compute; reflexivity|].
  split; [intros c t E; injection E as <- _; split; discriminate|]. split; [repeat constructor; vm_compute; intuition discriminate|].
  split; [reached 6%nat|]. split; [vm_compute; reflexivity|]. split; [apply plain_stmt; vm_compute; reflexivity|].
  split; [apply sz_none; reflexivity|]. split; [is_reg|]. split; [vm_compute; reflexivity|]. split; [vm_compute; reflexivity|].
  split; [eexists; split; vm_compute; reflexivity|]. split; reflexivity.
Qed.
(** A byte distance reaches 128 bytes. *)
Definition c60_far : str := lines ["beq.b far"; ".fill 128"; "far: nop"]%string.
Example C60_far_example :
  let s2 := fst (assemble mm 5 c60_far (init_st [])) in
  let x := Stmt KInstruction [#"beq.b"; #"far"] 1 in
  passes_through mm 5 c60_far (init_st []) (init_st []) x (fst (exec mm 5 [x] (init_st []))) s2 /\
  form true #"beq.b" [#"far"] [Val (branch8 0x6700) #"far"] /\ not_num mc_p (init_st []) #"far" 8 true /\
  no_text s2 /\ address_of (labels s2) #"far" 130 /\ ~ - 2 ^ (8 - 1) <= 130 - (0 + 0 + 2) < 2 ^ (8 - 1) /\
  snd (link mm dummy_linker s2) = Err (AExc (NotInBitRange 128 8 (Some #"far"))).
Proof.
  cbv zeta. split; [reached 0%nat|]. split.
  { apply (f_branch8 true #"beq.b" #"eq" 7 #"far"); [vm_compute; tauto|apply sz_byte; reflexivity|is_value]. }
  split; [vm_compute; reflexivity|]. split; [untexted|]. split; [eexists; split; vm_compute; reflexivity|].
  split; [change (2 ^ (8 - 1)) with 128; lia|vm_compute; reflexivity].
Qed.

(** ** Findings *)

(** Whatever follows the operands of MOVE, the immediate instructions and the jumps is
    ignored; JMP (A0)+, which does not exist, is taken for JMP (A0). *)
Theorem C58_trailing_refuted :
  m_run ["move d0,d1,d2"]%string = m_run ["move d0,d1"]%string /\ snd (m_run ["move d0,d1"]%string) = Ok tt /\
  snd (m_run ["jmp (a0)+"]%string) = Ok tt /\ m_bytes ["jmp (a0)+"]%string = m_bytes ["jmp (a0)"]%string /\
  m_bytes ["addi #1,d0,d1,d2"]%string = m_bytes ["addi #1,d0"]%string.
Proof. split; [|split; [|split; [|split]]]; vm_compute; reflexivity. Qed.
(** JMP -(A0), which does not exist, is taken for a jump to a label named -. *)
Theorem C58_decrement_refuted :
  snd (m_run ["jmp -(a0)"]%string) = Ok tt /\ m_bytes ["jmp -(a0)"]%string = [0x4E; 0xF9; 0; 0; 0; 0] /\
  snd (link mm dummy_linker (fst (m_run ["jmp -(a0)"]%string))) <> Ok tt.
Proof. split; [|split]; [vm_compute; reflexivity..|vm_compute; discriminate]. Qed.
(** DBF and DBT with their size written out are known names but never accepted. *)
Theorem C58_loop_size_refuted : forall e s words t0 ops fuel l, opcode_stmt (mc68000 e) s words t0 ops -> 0 <= pc s ->
  lower t0 = #"dbf.w" \/ lower t0 = #"dbt.w" ->
  snd (exec (mc68000 e) fuel [Stmt KInstruction words l] s) <> Ok tt.
Proof.
  intros e s words t0 ops fuel l OS PC N H. destruct (exec (mc68000 e) fuel [Stmt KInstruction words l] s) as [s' r] eqn:E. cbn [snd] in H. subst r.
  rewrite (exec_opcode _ _ _ _ _ _ _ OS), mc_key in E. pose proof (mc_lookup e t0) as L.
  assert (D : dget str_eqb mc_table (lower t0) = Some (Some CDbcc)) by (destruct N as [N|N]; rewrite N; vm_compute; reflexivity).
  rewrite D in L. cbn [option_map] in L. apply (fun_result _ _ _ _ _ _ L) in E. destruct E as (b & E & _).
  cbn [mc_run] in E. unfold mc_dbcc in E. destruct (imatch (t0 :: ops) 1 _); [|discriminate E].
  rewrite tok_first, ret_bind, cond_lower in E. destruct N as [N|N]; rewrite N in E; vm_compute in E; discriminate E.
Qed.
Print Assumptions C58_loop_size_refuted.
(** A single letter of CCR, SR or PC is taken for the whole. *)
Theorem C58_letter_refuted :
  m_bytes ["c: ori #1,c"]%string = m_bytes ["ori #1,ccr"]%string /\ m_bytes ["s: ori #1,s"]%string = m_bytes ["ori #1,sr"]%string /\
  m_bytes ["jmp (4,c)"]%string = m_bytes ["jmp (4,pc)"]%string.
Proof. split; [|split]; vm_compute; reflexivity. Qed.
(** An index register in capitals needs a size. *)
Theorem C58_index_refuted :
  snd (m_run ["jmp (4,a0,D1)"]%string) <> Ok tt /\ snd (m_run ["jmp (4,a0,d1)"]%string) = Ok tt /\ snd (m_run ["jmp (4,a0,D1.w)"]%string) = Ok tt.
Proof. split; [|split]; [vm_compute; discriminate|vm_compute; reflexivity..]. Qed.
(** Instructions the processor does not have: a byte out of an address register, a long
    immediate to the status register. *)
Theorem C58_illegal_refuted :
  snd (m_run ["move.b a0,d0"]%string) = Ok tt /\ m_bytes ["move.b a0,d0"]%string = [0x10; 0x08] /\
  m_bytes ["ori.l #1,sr"]%string = m_bytes ["ori #1,sr"]%string.
Proof. split; [|split]; vm_compute; reflexivity. Qed.
(** A short branch to the next instruction gets the displacement 0, which the processor
    takes for a branch with a word of displacement. *)
Theorem C60_next_refuted :
  let s2 := fst (m_run ["beq.b next"; "next: nop"]%string) in
  snd (link mm dummy_linker s2) = Ok tt /\ assembled (fst (link mm dummy_linker s2)) = [0x67; 0x00; 0x4E; 0x71].
Proof. split; vm_compute; reflexivity. Qed.

(** ** C39 and C46 *)

Theorem C39_mc68000 : forall e, fits (mc68000 e) /\ handlers neat (mc68000 e).
Proof. exact mc68000_fits. Qed.
Print Assumptions C39_mc68000.
(** The Genesis script with the processor it uses. *)
Theorem C46_genesis : forall e fuel args files, byte_files (mc68000 e) -> genesis_main (mc68000 e) fuel args = (files, Ok tt) ->
  exists source dest rest s image rom, args = source :: dest :: rest /\ builds (mc68000 e) [] fuel dummy_linker [source] s image /\
    files = [(dest, rom)] /\ genesis_valid rom /\ differ_at [0x18E; 0x18F] image rom.
Proof. intros e fuel args files B H. exact (C46_checksum _ _ _ _ (proj1 (mc68000_fits e)) B H). Qed.
Print Assumptions C46_genesis.
Theorem C46_genesis_succeeds : forall e fuel source dest rest s image, byte_files (mc68000 e) ->
  builds (mc68000 e) [] fuel dummy_linker [source] s image ->
  (exists rom, genesis_main (mc68000 e) fuel (source :: dest :: rest) = ([(dest, rom)], Ok tt)) <->
  0x190 <= zlen image /\ (zlen image <= 0x200 \/ Z.even (zlen image) = true).
Proof. intros e fuel source dest rest s image B H. exact (C46_succeeds _ _ _ _ _ _ _ (proj1 (mc68000_fits e)) B H). Qed.
Print Assumptions C46_genesis_succeeds.
Definition c46_rom : env := rom_env (lines [".fill $200"; "start: move.w #$1234,d0"; "jmp start"]%string).
Example C46_genesis_example : byte_files (mc68000 c46_rom) /\ exists rom,
  genesis_main (mc68000 c46_rom) 5 [#"a.s"; #"out"] = ([(#"out", rom)], Ok tt) /\
  zlen rom = 0x20A /\ slice 0x18E 2 rom = [0x93; 0x69] /\ slice 0x200 10 rom = [0x30; 0x3C; 0x12; 0x34; 0x4E; 0xF9; 0; 0; 2; 0].
Proof.
  split.
  - intros n b H. vm_compute in H. discriminate H.
  - eexists. split; [vm_compute; reflexivity|]. split; [|split]; vm_compute; reflexivity.
Qed.
Print Assumptions C58_trailing_refuted.
Print Assumptions C58_decrement_refuted.
Print Assumptions C58_letter_refuted.
Print Assumptions C58_index_refuted.
Print Assumptions C58_illegal_refuted.
Print Assumptions C60_next_refuted.
