(** Properties C64 to C66: the PowerPC. *)
From Coq Require Import Lia.
From Verif Require Import Reach.
From Verif Require Import Py PyFacts Utils Tokenizer State Assembler SpecUtils SpecParse SpecSubst SpecExec SpecLink
  UtilsFacts SpecCpu SpecPlace Instr Ppc CpuFacts WordFacts LabelMono Demo
  PropsPlace PropsMosLink PropsFit FitFacts.
From Verif Require Import SpecPpc PpcFacts PpcEnc FitPpc PpcLink.
Local Open Scope Z_scope.

(** ** C64 *)

(** An instruction, other than the deviating ones, is accepted exactly when its name and its
    operands are in the manual, and then becomes the word of the manual, most significant byte
    first. *)
Theorem C64_encoding : forall e fuel words l s s' t0 ops,
  opcode_stmt (powerpc e) s words t0 ops -> ~ In (lower t0, length ops) deviating ->
  exec (powerpc e) fuel [Stmt KInstruction words l] s = (s', Ok tt) <->
  exists f w ds, In (lower t0, f) manual /\ encodes s f ops w ds /\ emitted (referring s ds) (SpecMips.word_bytes true w) s'.
Proof. exact ppc_encoding. Qed.
Print Assumptions C64_encoding.

(** The manual leaves no choice. *)
Theorem C64_unambiguous : forall n s f g ops w ds x es, In (n, f) manual -> In (n, g) manual ->
  encodes s f ops w ds -> encodes s g ops x es -> f = g /\ w = x /\ ds = es.
Proof. exact ppc_unambiguous. Qed.
Print Assumptions C64_unambiguous.

(** Whatever the name, everything without operands of the manual is an error. *)
Lemma not_accepted : forall c s words t0 ops, opcode_stmt c s words t0 ops ->
  (forall fuel l s', exec c fuel [Stmt KInstruction words l] s <> (s', Ok tt)) -> rejected c s words.
Proof.
  intros c s words t0 ops OS H fuel l. specialize (H fuel l). rewrite (exec_opcode _ _ _ _ _ fuel l OS) in *. unfold opcode_assemble in *.
  destruct (dget str_eqb (c_instructions c) (op_key c t0)) as [[b|f]|] eqn:D.
  - destruct (negb _); [eexists; reflexivity|exfalso; eapply H; reflexivity].
  - unfold bind, call_handler in *. destruct (f (t0 :: ops) s) as [s1 [[b|]|[x|x]]]; [exfalso; eapply H; reflexivity|eexists; reflexivity..].
  - eexists. reflexivity.
Qed.
Theorem C64_rejected : forall e s words t0 ops, opcode_stmt (powerpc e) s words t0 ops ->
  (forall f w ds, In (lower t0, f) manual -> ~ encodes s f ops w ds) -> rejected (powerpc e) s words.
Proof.
  intros e s words t0 ops OS NO. apply (not_accepted _ s words t0 ops OS). intros fuel l s' H.
  destruct (ppc_accepted e fuel words l s s' t0 ops OS H) as (f & w & ds & M & EN). exact (NO f w ds M EN).
Qed.
Print Assumptions C64_rejected.

(** Instructions of the processor that are not accepted with any operands. *)
Theorem C64_missing_refuted : forall e s words t0 ops, opcode_stmt (powerpc e) s words t0 ops ->
  In (lower t0) missing -> rejected (powerpc e) s words.
Proof.
  intros e s words t0 ops OS I. apply (C64_rejected e s words t0 ops OS). intros f w ds M _.
  assert (X : forallb (fun '(n, _) => negb (str_in n missing)) manual = true) by (vm_compute; reflexivity).
  rewrite forallb_forall in X. specialize (X _ M). cbv beta iota in X. apply str_in_In in I. rewrite I in X. discriminate X.
Qed.
Print Assumptions C64_missing_refuted.

(** Register 0 cannot be written as an operand that has to be a register. *)
Theorem C64_zero_refuted : forall e s words t0 ops, opcode_stmt (powerpc e) s words t0 ops ->
  (forall f, In (lower t0, f) manual -> exists i a b t, nth_error (snd f) i = Some (Gpr, a, b) /\ nth_error ops i = Some t /\ lower t = #"r0") ->
  rejected (powerpc e) s words.
Proof.
  intros e s words t0 ops OS NO. apply (C64_rejected e s words t0 ops OS). intros f w ds M (vs & R & _).
  destruct (NO f M) as (i & a & b & t & F & O & T). clear -R F O T. revert i F O. induction R as [|g fs u ts v vs d ds R1 R IH]; intros [|i] F O; try discriminate O.
  - cbn [nth_error] in F, O. assert (g = (Gpr, a, b)) as -> by congruence. assert (u = t) as -> by congruence. inversion R1 as [? ? ? ? [P NR] NZ| | | | | | |]; subst.
    rewrite T in NR. apply NZ. assert (X : nth_reg gprs #"r0" 0) by (split; [lia|reflexivity]). apply (nodup_nth gprs gprs_nodup #"r0"); [split; [exact P|exact NR]|exact X].
  - cbn [nth_error] in F, O. exact (IH i F O).
Qed.
Print Assumptions C64_zero_refuted.

(** ** C65 *)

(** In the linked image an instruction with at most one name among its operands is the word of
    the manual with the address, or the quarter of the distance or address, in its place. *)
Theorem C65_linked : forall e fuel text s0 s words l s1 s2 s3 t0 ops f v ds,
  let c := powerpc e in
  byte_files c -> sane s0 ->
  passes_through c fuel text s0 s (Stmt KInstruction words l) s1 s2 ->
  opcode_stmt c s words t0 ops -> In (lower t0, f) manual -> ~ In (lower t0, length ops) deviating ->
  encodes s f ops v ds -> (length ds <= 1)%nat -> short_texts c s2 ->
  link c dummy_linker s2 = (s3, Ok tt) ->
  exists w, settled s s2 f ops w /\ slice (zlen (assembled s)) 4 (assembled s3) = SpecMips.word_bytes true w.
Proof.
  intros e fuel text s0 s words l s1 s2 s3 t0 ops [w fs] v ds c B SN H OS M ND EN LE NT LK.
  exact (ppc_linked e fuel text s0 s words l s1 s2 s3 t0 ops w fs B SN H OS M ND NT LK v ds EN LE).
Qed.
Print Assumptions C65_linked.

(** ** C66 *)

Lemma last_settled : forall s s2 w pre o a b init t v, settled s s2 (w, pre ++ [(o, a, b)]) (init ++ [t]) v -> length init = length pre ->
  exists xs u, length xs = length pre /\ settled1 s s2 (o, a, b) t u /\ v = filled w (pre ++ [(o, a, b)]) (xs ++ [u]).
Proof.
  intros s s2 w pre o a b init t v (vs & F & ->) L. cbn [fst snd] in *.
  assert (E : combine (pre ++ [(o, a, b)]) (init ++ [t]) = combine pre init ++ [((o, a, b), t)]).
  { clear F. revert init L. induction pre as [|f pre IH]; intros [|i init] L; try discriminate L; [reflexivity|]. cbn [app combine]. rewrite IH by (cbn [length] in L; lia). reflexivity. }
  pose proof (eq_ind _ (fun z => Forall2 (fun '(f, t) v => settled1 s s2 f t v) z vs) F _ E) as F0. clear F. apply Forall2_app_inv_l in F0. rename F0 into F. destruct F as (xs & us & F1 & F2 & ->). inversion F2 as [|? u ? us' S F3]; subst. inversion F3; subst.
  exists xs, u. split; [|split; [exact S|reflexivity]]. rewrite <- L. clear -F1 L. revert init xs L F1. induction pre as [|p pre IH]; intros [|i init] xs L F1; try discriminate L; inversion F1; subst; [reflexivity|].
  cbn [length]. f_equal. eapply IH; [cbn [length] in L; lia|eassumption].
Qed.
Definition start_of (o : operand) (s : st) : Z := match o with Address => 0 | _ => pc s end.

Lemma branch_linked : forall e fuel text s0 s words l s1 s2 s3 t0 init t w pre o a b v ds,
  let c := powerpc e in
  byte_files c -> sane s0 ->
  passes_through c fuel text s0 s (Stmt KInstruction words l) s1 s2 ->
  opcode_stmt c s words t0 (init ++ [t]) -> In (lower t0, (w, pre ++ [(o, a, b)])) manual -> o = Distance \/ o = Address ->
  encodes s (w, pre ++ [(o, a, b)]) (init ++ [t]) v ds -> (length ds <= 1)%nat -> (forall sg, not_num ppc s t (width (o, a, b)) sg) ->
  no_select t -> no_ops t -> t <> [] -> short_texts c s2 -> link c dummy_linker s2 = (s3, Ok tt) ->
  exists ad x, address_of (labels s2) t ad /\ slice (zlen (assembled s)) 4 (assembled s3) = SpecMips.word_bytes true x /\
    goes (pc s) x = Some (start_of o s + 4 * ((ad - start_of o s) / 4)) /\
    (if start_of o s =? 0 then 0 <= ad < 2 ^ width (o, a, b) else - 2 ^ (width (o, a, b) - 1) <= ad - start_of o s < 2 ^ (width (o, a, b) - 1)).
Proof.
  intros e fuel text s0 s words l s1 s2 s3 t0 init t w pre o a b v ds c B SN H OS M TO EN LE NN NS NO NE NT LK.
  assert (TG : is_target o = true) by (destruct TO as [-> | ->]; reflexivity).
  destruct (branch_widths _ _ _ _ _ _ M TG) as [WD DV]. pose proof (encodes_len _ _ _ _ _ EN) as LN. cbn [snd] in LN.
  assert (L : length init = length pre) by (rewrite !app_length in LN; cbn [length] in LN; lia).
  destruct (ppc_linked e fuel text s0 s words l s1 s2 s3 t0 (init ++ [t]) w _ B SN H OS M ltac:(rewrite LN; exact DV) NT LK v ds EN LE) as (x & SE & SL).
  destruct (last_settled _ _ _ _ _ _ _ _ _ _ SE L) as (xs & u & LX & S1 & EX).
  assert (P2 : 2 ^ width (o, a, b) = 4 * 2 ^ (width (o, a, b) - 2) /\ 2 ^ (width (o, a, b) - 1) = 2 * 2 ^ (width (o, a, b) - 2)).
  { destruct WD as [-> | ->]; split; reflexivity. }
  assert (P0' : 0 < 2 ^ (width (o, a, b) - 2)) by (destruct WD as [-> | ->]; reflexivity).
  set (n := width (o, a, b)) in *. destruct P2 as [P2 P1].
  inversion S1 as [v' R1|al sg PW FS N1 LA RG|al x1 y1 EF PW N1 P0 LR RG|al x1 y1 EF PW N1 LA RG]; subst.
  - exfalso. inversion R1 as [| | | |? ? ? ? ? NB|? ? ? ? ? NB|? ? ? ? ? NB|? ? ? ? ? NB]; subst; try discriminate TG; try (destruct TO; discriminate);
      inversion NB as [z PW NU|]; subst; unfold num in NU; pose proof (NN (negb (pc s =? 0))) as X1; pose proof (NN false) as X2; unfold not_num in X1, X2; fold n in NU; congruence.
  - exfalso. destruct FS as (? & ? & [[E _]|[E _]]); injection E as -> _ _; destruct TO; discriminate.
  - injection EF as -> -> ->. destruct (plain_relative _ _ _ _ _ NS NO NE LR) as (ad & A & ->). exists ad, (filled w (pre ++ [(Distance, x1, y1)]) (xs ++ [(ad - pc s) / 4])).
    split; [exact A|]. split; [exact SL|]. cbn [start_of]. split.
    + rewrite (branch_goes _ _ _ _ _ _ _ _ (pc s) M TG LX); [reflexivity|]. fold n in RG |- *. clearbody n. split; [apply Z.div_le_lower_bound; lia|apply Z.div_lt_upper_bound; lia].
    + rewrite (proj2 (Z.eqb_neq _ _) P0). exact RG.
  - assert (Z0 : start_of o s = 0) by (destruct EF as [E|[E E0]]; injection E as -> _ _; [reflexivity|exact E0]).
    rewrite ParseFacts.label_absolute_relative in LA. destruct (plain_relative _ _ _ _ _ NS NO NE LA) as (ad & A & E0). rewrite Z.sub_0_r in E0. subst al.
    exists ad, (filled w (pre ++ [(o, a, b)]) (xs ++ [ad / 4])). split; [exact A|]. split; [exact SL|]. rewrite Z0, Z.sub_0_r. split; [|exact RG].
    rewrite (branch_goes _ _ _ _ _ _ _ _ (pc s) M TG LX).
    + f_equal. f_equal. destruct o; try discriminate TG; [exact Z0|reflexivity].
    + fold n in RG |- *. clearbody n. split; [|apply Z.div_lt_upper_bound; lia]. assert (0 <= ad / 4) by (apply Z.div_pos; lia). lia.
Qed.

(** A branch that links goes to its label; instructions and label being at multiples of four,
    to the label itself. *)
Theorem C66_lands : forall e fuel text s0 s words l s1 s2 s3 t0 init t w pre o a b v ds,
  let c := powerpc e in
  byte_files c -> sane s0 ->
  passes_through c fuel text s0 s (Stmt KInstruction words l) s1 s2 ->
  opcode_stmt c s words t0 (init ++ [t]) -> In (lower t0, (w, pre ++ [(o, a, b)])) manual -> o = Distance \/ o = Address ->
  encodes s (w, pre ++ [(o, a, b)]) (init ++ [t]) v ds -> (length ds <= 1)%nat -> (forall sg, not_num ppc s t (width (o, a, b)) sg) ->
  no_select t -> no_ops t -> t <> [] -> short_texts c s2 -> (4 | pc s) -> link c dummy_linker s2 = (s3, Ok tt) ->
  exists ad x, address_of (labels s2) t ad /\ slice (zlen (assembled s)) 4 (assembled s3) = SpecMips.word_bytes true x /\
    goes (pc s) x = Some (ad - ad mod 4).
Proof.
  intros e fuel text s0 s words l s1 s2 s3 t0 init t w pre o a b v ds c B SN H OS M TO EN LE NN NS NO NE NT [k K] LK.
  destruct (branch_linked e fuel text s0 s words l s1 s2 s3 t0 init t w pre o a b v ds B SN H OS M TO EN LE NN NS NO NE NT LK) as (ad & x & A & SL & G & _).
  exists ad, x. split; [exact A|]. split; [exact SL|]. rewrite G. f_equal.
  assert (X : exists j, start_of o s = j * 4) by (destruct TO as [-> | ->]; cbn [start_of]; [exists k; exact K|exists 0; reflexivity]).
  destruct X as [j ->]. replace (ad - j * 4) with (ad + (- j) * 4) by ring. rewrite Z.div_add by lia. pose proof (Z.div_mod ad 4 ltac:(lia)). lia.
Qed.
Print Assumptions C66_lands.

(** A target beyond the reach of the assembler, or not defined anywhere, does not link. *)
Theorem C66_too_far : forall e fuel text s0 s words l s1 s2 t0 init t w pre a b v ds,
  let c := powerpc e in
  byte_files c -> sane s0 ->
  passes_through c fuel text s0 s (Stmt KInstruction words l) s1 s2 ->
  opcode_stmt c s words t0 (init ++ [t]) -> In (lower t0, (w, pre ++ [(Distance, a, b)])) manual ->
  encodes s (w, pre ++ [(Distance, a, b)]) (init ++ [t]) v ds -> (length ds <= 1)%nat -> (forall sg, not_num ppc s t (width (Distance, a, b)) sg) ->
  no_select t -> no_ops t -> t <> [] -> short_texts c s2 -> 0 < pc s ->
  (forall ad, address_of (labels s2) t ad -> ~ - 2 ^ (width (Distance, a, b) - 1) <= ad - pc s < 2 ^ (width (Distance, a, b) - 1)) ->
  snd (link c dummy_linker s2) <> Ok tt.
Proof.
  intros e fuel text s0 s words l s1 s2 t0 init t w pre a b v ds c B SN H OS M EN LE NN NS NO NE NT PC FAR LK.
  destruct (link c dummy_linker s2) as [s3 r] eqn:E. cbn [snd] in LK. subst r.
  destruct (branch_linked e fuel text s0 s words l s1 s2 s3 t0 init t w pre Distance a b v ds B SN H OS M (or_introl eq_refl) EN LE NN NS NO NE NT E) as (ad & x & A & _ & _ & R).
  cbn [start_of] in R. rewrite (proj2 (Z.eqb_neq (pc s) 0)) in R by lia. exact (FAR ad A R).
Qed.
Print Assumptions C66_too_far.

(** ** Concrete cases *)
Definition pp := powerpc demo_env.
Definition p_run (l : list string) : st * res unit := assemble pp 5 (lines l) (init_st []).
Definition p_bytes (l : list string) : bytes := assembled (fst (p_run l)).
Definition p_linked (l : list string) : bytes := assembled (fst (link pp dummy_linker (fst (p_run l)))).
Lemma is_plain : forall t, str_in t (gprs ++ fprs) = false -> plain_word t.
Proof. intros t H I. apply str_in_In in I. rewrite I in H. discriminate H. Qed.
Lemma manual_has : forall n w fs, existsb (fun '(m, (x, gs)) => str_eqb m n && (x =? w) && fields_eqb gs fs) manual = true -> In (n, (w, fs)) manual.
Proof.
  intros n w fs H. apply existsb_exists in H. destruct H as ([m [x gs]] & I & E). rewrite !andb_true_iff in E. destruct E as [[E1 E2] E3].
  apply str_eqb_eq in E1. apply Z.eqb_eq in E2. apply fields_eqb_eq in E3. subst. exact I.
Qed.
Lemma not_dev : forall n k, devb n k = false -> ~ In (n, k) deviating.
Proof. intros n k H I. apply devb_In in I. rewrite I in H. discriminate H. Qed.
Ltac greg := split; [lia|vm_compute; reflexivity].
Definition c64_text : str := lines [".org 0x1000"; "top: addi r3, r4, -2"; "ADD. r5, R6, r7"; "fadd f1, f2, f3"; "li r8, top"; "bne top"; "bc 12, 2, top"; "ba top"; "blr"]%string.
Example C64_example :
  let s := fst (exec pp 5 (firstn 2 (stmts_of c64_text)) (init_st [])) in
  let words := [#"addi"; #"r3"; #"r4"; #"-2"] in
  let f := (code 14 0 0, [RT; RA0; SI]) in
  opcode_stmt pp s words #"addi" (tl words) /\ In (#"addi", f) manual /\ ~ In (#"addi", 3%nat) deviating /\
  encodes s f (tl words) 0x3864FFFE [] /\
  p_bytes [".org 0x1000"; "top: addi r3, r4, -2"; "ADD. r5, R6, r7"]%string = [0x38; 0x64; 0xFF; 0xFE; 0x7C; 0xA6; 0x3A; 0x15].
Proof.
  cbv zeta. split; [apply plain_stmt; vm_compute; reflexivity|]. split; [apply manual_has; vm_compute; reflexivity|]. split; [apply not_dev; vm_compute; reflexivity|].
  split; [|vm_compute; reflexivity]. exists [3; 4; -2]. split; [|vm_compute; reflexivity]. cbn [snd tl].
  apply (r_cons _ RT _ _ _ 3 _ [] []); [apply r_gpr; [greg|lia]|]. apply (r_cons _ RA0 _ _ _ 4 _ [] []); [apply r_gpr0; greg|].
  apply (r_cons _ SI _ _ _ (-2) _ [] []); [|constructor]. apply r_signed. apply n_num; [apply is_plain; vm_compute; reflexivity|vm_compute; reflexivity].
Qed.
Example C64_wrong : opcode_stmt pp (init_st []) [#"add"; #"r3"; #"r4"; #"5"] #"add" [#"r3"; #"r4"; #"5"] /\
  (forall f w ds, In (#"add", f) manual -> ~ encodes (init_st []) f [#"r3"; #"r4"; #"5"] w ds) /\
  (forall f, In (#"add", f) manual -> exists i a b t, nth_error (snd f) i = Some (Gpr, a, b) /\ nth_error [#"r3"; #"r0"; #"r4"] i = Some t /\ lower t = #"r0") /\
  opcode_stmt pp (init_st []) [#"lwz"; #"r3"; #"4"; #"r5"] #"lwz" [#"r3"; #"4"; #"r5"] /\ In #"lwz" missing.
Proof.
  assert (ONE : forall f, In (#"add", f) manual -> f = (code 31 266 0, [RT; RA; RB])).
  { assert (M : In (#"add", (code 31 266 0, [RT; RA; RB])) manual) by (apply manual_has; vm_compute; reflexivity).
    assert (X : forallb (fun '(n, (_, fs)) => negb (str_eqb n #"add") || Nat.eqb (length fs) 3) manual = true) by (vm_compute; reflexivity).
    intros [w fs] I. rewrite forallb_forall in X. specialize (X _ I). cbv beta iota in X. rewrite str_eqb_refl in X. cbn [negb orb] in X. apply Nat.eqb_eq in X.
    apply (one_form _ _ _ I M). exact X. }
  split; [apply plain_stmt; vm_compute; reflexivity|]. split.
  { intros f w ds I (vs & R & _). rewrite (ONE f I) in R. cbn [snd] in R. inversion R as [|? ? ? ? ? ? ? ? _ Ra]; subst. inversion Ra as [|? ? ? ? ? ? ? ? _ Rb]; subst.
    inversion Rb as [|? ? ? ? ? ? ? ? Rc _]; subst. inversion Rc as [? ? ? n NR _| | | | | | |]; subst.
    assert (J : In (lower #"5") gprs) by (apply nth_reg_In; eauto). apply str_in_In in J. vm_compute in J. discriminate J. }
  split. { intros f I. rewrite (ONE f I). exists 1%nat, 11, 15, #"r0". repeat split. }
  split; [apply plain_stmt; vm_compute; reflexivity|]. apply str_in_In. vm_compute. reflexivity.
Qed.
Example C65_example :
  let s := fst (exec pp 5 (firstn 5 (stmts_of c64_text)) (init_st [])) in
  let words := [#"li"; #"r8"; #"top"] in
  let f := (code 14 0 0, [RT; SI]) in
  let d := ppc_ref #"top" SI 0 None in
  let x := Stmt KInstruction words 5 in
  let s2 := fst (assemble pp 5 c64_text (init_st [])) in
  passes_through pp 5 c64_text (init_st []) s x (fst (exec pp 5 [x] s)) s2 /\
  opcode_stmt pp s words #"li" (tl words) /\ In (#"li", f) manual /\ encodes s f (tl words) 0x39000000 [d] /\ no_text s2 /\
  snd (link pp dummy_linker s2) = Ok tt /\ settled s s2 f (tl words) 0x39001000 /\
  slice (zlen (assembled s)) 4 (assembled (fst (link pp dummy_linker s2))) = [0x39; 0x00; 0x10; 0x00].
Proof.
  cbv zeta. split; [reached 5%nat|]. split; [apply plain_stmt; vm_compute; reflexivity|]. split; [apply manual_has; vm_compute; reflexivity|].
  split. { exists [8; 0]. split; [|vm_compute; reflexivity]. cbn [snd tl]. apply (r_cons _ RT _ _ _ 8 _ [] [_]); [apply r_gpr; [greg|lia]|].
    apply (r_cons _ SI _ _ _ 0 _ [_] []); [|constructor]. apply r_signed. apply n_name; [apply is_plain; vm_compute; reflexivity|vm_compute; reflexivity]. }
  split; [untexted|]. split; [vm_compute; reflexivity|]. split; [|vm_compute; reflexivity].
  exists [8; 0x1000]. split; [|vm_compute; reflexivity]. cbn [snd tl combine]. constructor; [apply st_read, r_gpr; [greg|lia]|]. constructor; [|constructor].
  apply (st_number _ _ _ _ _ true); [apply is_plain; vm_compute; reflexivity|exists 16, 31; left; split; reflexivity|vm_compute; reflexivity|vm_compute; reflexivity|cbn; lia].
Qed.
Example C66_example :
  let s := fst (exec pp 5 (firstn 7 (stmts_of c64_text)) (init_st [])) in
  let words := [#"bc"; #"12"; #"2"; #"top"] in
  let f := (code 16 0 0, [BO; BI] ++ [BD]) in
  let x := Stmt KInstruction words 7 in
  let s2 := fst (assemble pp 5 c64_text (init_st [])) in
  passes_through pp 5 c64_text (init_st []) s x (fst (exec pp 5 [x] s)) s2 /\
  opcode_stmt pp s words #"bc" ([#"12"; #"2"] ++ [#"top"]) /\ In (#"bc", f) manual /\
  encodes s f [#"12"; #"2"; #"top"] 0x41820000 [ppc_ref #"top" BD 0x1014 quarter] /\ (forall sg, not_num ppc s #"top" (width BD) sg) /\
  no_select #"top" /\ no_ops #"top" /\ pc s = 0x1014 /\ no_text s2 /\ snd (link pp dummy_linker s2) = Ok tt /\ address_of (labels s2) #"top" 0x1000 /\
  goes 0x1014 0x4182FFEC = Some 0x1000 /\ In (#"ba", (code 18 1 0, [] ++ [LIA])) manual /\ goes 0x1018 0x48001002 = Some 0x1000 /\
  slice (zlen (assembled s)) 8 (assembled (fst (link pp dummy_linker s2))) = [0x41; 0x82; 0xFF; 0xEC; 0x48; 0x00; 0x10; 0x02].
Proof.
  cbv zeta. split; [reached 7%nat|]. split; [apply plain_stmt; vm_compute; reflexivity|]. split; [apply manual_has; vm_compute; reflexivity|].
  split. { exists [12; 2; 0]. split; [|vm_compute; reflexivity]. cbn [snd app]. apply (r_cons _ BO _ _ _ 12 _ [] [_]).
    { apply r_unsigned, n_num; [apply is_plain; vm_compute; reflexivity|vm_compute; reflexivity]. }
    apply (r_cons _ BI _ _ _ 2 _ [] [_]). { apply r_unsigned, n_num; [apply is_plain; vm_compute; reflexivity|vm_compute; reflexivity]. }
    apply (r_cons _ BD _ _ _ 0 _ [_] []); [|constructor]. set (s := fst _). assert (E : pc s = 0x1014) by (vm_compute; reflexivity). rewrite <- E. apply r_distance. apply n_name; [apply is_plain; vm_compute; reflexivity|vm_compute; reflexivity]. }
  split; [intros []; vm_compute; reflexivity|]. split; [intros c t E; injection E as <- _; split; discriminate|].
  split; [repeat (constructor; [vm_compute; intuition discriminate|]); constructor|]. split; [vm_compute; reflexivity|]. split; [untexted|]. split; [vm_compute; reflexivity|].
  split; [eexists; split; vm_compute; reflexivity|]. split; [vm_compute; reflexivity|]. split; [apply manual_has; vm_compute; reflexivity|]. split; vm_compute; reflexivity.
Qed.
Definition c66_far : str := lines [".org 0x1000"; "bne far"; ".org 0x3000"; "far: nop"]%string.
Example C66_far :
  let s := fst (exec pp 5 (firstn 1 (stmts_of c66_far)) (init_st [])) in
  let x := Stmt KInstruction [#"bne"; #"far"] 2 in
  let s2 := fst (assemble pp 5 c66_far (init_st [])) in
  passes_through pp 5 c66_far (init_st []) s x (fst (exec pp 5 [x] s)) s2 /\ opcode_stmt pp s [#"bne"; #"far"] #"bne" ([] ++ [#"far"]) /\
  In (#"bne", (code 16 0 0 + cond_code 4 2, [] ++ [BD])) manual /\ 0 < pc s /\
  (forall ad, address_of (labels s2) #"far" ad -> ~ - 2 ^ (width BD - 1) <= ad - pc s < 2 ^ (width BD - 1)) /\ fine (snd (link pp dummy_linker s2)) = false.
Proof.
  cbv zeta. split; [reached 1%nat|]. split; [apply plain_stmt; vm_compute; reflexivity|]. split; [apply manual_has; vm_compute; reflexivity|]. split; [vm_compute; reflexivity|].
  split; [|vm_compute; reflexivity]. intros a (d & D & A). vm_compute in D. injection D as <-. vm_compute in A. subst a. vm_compute. intuition discriminate.
Qed.

(** ** Findings *)

(** The word of BCTR and BCTRL branches on a false bit 0 of the condition register instead of
    always; MFTB is encoded as a move from special register 0. *)
Theorem C64_deviating_refuted :
  p_bytes ["bctr"]%string = SpecMips.word_bytes true (code 19 528 0) /\ p_bytes ["bctrl"]%string = SpecMips.word_bytes true (code 19 528 1) /\
  In (#"bctr", (code 19 528 0 + cond_code 20 0, [])) manual /\ In (#"bctrl", (code 19 528 1 + cond_code 20 0, [])) manual /\
  p_bytes ["mftb r3"]%string = [0x7C; 0x60; 0x02; 0xE6] /\ In (#"mftb", (code 31 371 0 + spr 268, [RT])) manual /\
  code 31 371 0 + spr 268 + put 6 10 3 = 0x7C6C42E6.
Proof.
  split; [vm_compute; reflexivity|]. split; [vm_compute; reflexivity|]. split; [apply manual_has; vm_compute; reflexivity|]. split; [apply manual_has; vm_compute; reflexivity|].
  split; [vm_compute; reflexivity|]. split; [apply manual_has; vm_compute; reflexivity|vm_compute; reflexivity].
Qed.
Print Assumptions C64_deviating_refuted.
(** A register in upper case is the name of a label where a number is expected. *)
Theorem C64_upper_refuted : snd (p_run ["li r3, R4"]%string) = Ok tt /\ map (fun r => ld_label (snd r)) (labels_addresses (fst (p_run ["li r3, R4"]%string))) = [#"R4"] /\
  snd (p_run ["li r3, r4"]%string) <> Ok tt.
Proof. split; [vm_compute; reflexivity|]. split; [vm_compute; reflexivity|vm_compute; discriminate]. Qed.
Print Assumptions C64_upper_refuted.
(** With two names in one instruction only the last is linked. *)
Theorem C65_two_names_refuted :
  let r := link pp dummy_linker (fst (p_run [".org 0x18"; "x: bc 4, x, x"; "bc 4, 0x18, x"]%string)) in
  snd r = Ok tt /\ assembled (fst r) = [0x40; 0x80; 0x00; 0x00; 0x40; 0x98; 0xFF; 0xFC].
Proof. split; vm_compute; reflexivity. Qed.
Print Assumptions C65_two_names_refuted.
(** A label within reach of the processor, which has 2^15 bytes in either direction, is refused;
    a number as target counts words while a label counts bytes; a label that is not at a multiple
    of four is taken for the one before it. *)
Theorem C66_reach_refuted :
  snd (link pp dummy_linker (fst (p_run [".org 0x1000"; "bne x"; ".org 0x3000"; "x: nop"]%string))) = Err (AExc (NotInBitRange 0x2000 14 (Some #"x"))) /\
  goes 0x1000 0x40822000 = Some 0x3000.
Proof. split; vm_compute; reflexivity. Qed.
Print Assumptions C66_reach_refuted.
Theorem C66_units_refuted : p_bytes [".org 0x1000"; "b 16"]%string = [0x48; 0; 0; 64] /\ goes 0x1000 0x48000040 = Some 0x1040 /\
  p_linked [".org 0x1000"; "b x"; ".org 0x1010"; "x: nop"]%string = [0x48; 0; 0; 16; 0x60; 0; 0; 0].
Proof. split; [|split]; vm_compute; reflexivity. Qed.
Print Assumptions C66_units_refuted.
Theorem C66_unaligned_refuted :
  let r := link pp dummy_linker (fst (p_run [".org 0x1000"; "b x"; ".db 1"; "x: nop"]%string)) in
  snd r = Ok tt /\ address_of (labels (fst r)) #"x" 0x1005 /\ firstn 4 (assembled (fst r)) = [0x48; 0; 0; 4] /\ goes 0x1000 0x48000004 = Some 0x1004.
Proof. cbv zeta. split; [vm_compute; reflexivity|]. split; [eexists; split; vm_compute; reflexivity|]. split; vm_compute; reflexivity. Qed.
Print Assumptions C66_unaligned_refuted.

(** ** C39 *)

Theorem C39_powerpc : forall e, fits (powerpc e) /\ handlers neat (powerpc e).
Proof. exact ppc_fits. Qed.
Print Assumptions C39_powerpc.
