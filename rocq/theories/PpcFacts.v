(** Lemmas for the PowerPC: operands, words and the table. *)
From Coq Require Import Lia.
From Verif Require Import Py PyFacts Utils Tokenizer State Assembler Instr Ppc.
From Verif Require Import SpecUtils SpecExec SpecLink SpecCpu UtilsFacts CpuFacts WordFacts FitFacts WordLink MipsFacts SpecPpc.
Local Open Scope Z_scope.

(** ** Fields that do not overlap *)

Definition clear (w hi lo : Z) : Prop := forall i, lo <= i <= hi -> Z.testbit w i = false.
Definition apart (f g : (Z * Z) * Z) : Prop :=
  let '((h1, l1), _) := f in let '((h2, l2), _) := g in h1 < l2 \/ h2 < l1.
Lemma clear_mod : forall w hi lo, 0 <= lo <= hi -> clear w hi lo <-> (w / 2 ^ lo) mod 2 ^ (hi - lo + 1) = 0.
Proof.
  intros w hi lo L. split.
  - intros C. apply Z.bits_inj'. intros i I. rewrite Z.bits_0. destruct (Z.lt_ge_cases i (hi - lo + 1)).
    + rewrite Z.mod_pow2_bits_low, Z.div_pow2_bits by lia. apply C. lia.
    + rewrite Z.mod_pow2_bits_high by lia. reflexivity.
  - intros Z0 i I. replace i with (i - lo + lo) by lia. rewrite <- Z.div_pow2_bits by lia.
    rewrite <- (Z.mod_pow2_bits_low _ (hi - lo + 1)) by lia. rewrite Z0. apply Z.bits_0.
Qed.
Lemma placed_bit : forall u hi lo i, 0 <= lo <= hi -> i < lo \/ hi < i -> 0 <= i -> Z.testbit ((u mod 2 ^ (hi - lo + 1)) * 2 ^ lo) i = false.
Proof.
  intros u hi lo i L O I. destruct O.
  - apply Z.mul_pow2_bits_low. lia.
  - rewrite Z.mul_pow2_bits, Z.mod_pow2_bits_high by lia. reflexivity.
Qed.
Lemma bits_bound : forall w n, 0 <= n -> 0 <= w -> (forall i, n <= i -> Z.testbit w i = false) -> w < 2 ^ n.
Proof.
  intros w n N W H. assert (E : w = w mod 2 ^ n).
  { apply Z.bits_inj'. intros i I. destruct (Z.lt_ge_cases i n).
    - rewrite Z.mod_pow2_bits_low by lia. reflexivity.
    - rewrite Z.mod_pow2_bits_high by lia. apply H. lia. }
  rewrite E. apply Z.mod_pos_bound. apply Z.pow_pos_nonneg; lia.
Qed.
Lemma small_bits : forall w n i, 0 <= w < 2 ^ n -> 0 <= n <= i -> Z.testbit w i = false.
Proof. intros w n i W I. rewrite <- (Z.mod_small w (2 ^ n)) by lia. apply Z.mod_pow2_bits_high. lia. Qed.
(** Adding a field to a word in which its bits are clear. *)
Definition with_field (w : Z) (f : (Z * Z) * Z) : Z := let '((hi, lo), v) := f in w + (v mod 2 ^ (hi - lo + 1)) * 2 ^ lo.
Definition shaped (n : Z) (f : (Z * Z) * Z) : Prop := let '((hi, lo), _) := f in 0 <= lo <= hi /\ hi < n.
Definition free (w : Z) (f : (Z * Z) * Z) : Prop := let '((hi, lo), _) := f in clear w hi lo.
Lemma with_lor : forall w hi lo v, 0 <= lo <= hi -> clear w hi lo ->
  with_field w ((hi, lo), v) = Z.lor w ((v mod 2 ^ (hi - lo + 1)) * 2 ^ lo).
Proof. intros w hi lo v L C. cbn [with_field]. symmetry. apply lor_field; [exact L|]. apply clear_mod; assumption. Qed.
Lemma with_bound : forall n w f, shaped n f -> free w f -> 0 <= w < 2 ^ n -> 0 <= with_field w f < 2 ^ n.
Proof.
  intros n w [[hi lo] v] [L H] C W. rewrite with_lor by assumption.
  assert (P : 0 <= (v mod 2 ^ (hi - lo + 1)) * 2 ^ lo) by (apply Z.mul_nonneg_nonneg; [apply Z.mod_pos_bound|]; try apply Z.pow_nonneg; try apply Z.pow_pos_nonneg; lia).
  assert (P2 : 0 <= Z.lor w ((v mod 2 ^ (hi - lo + 1)) * 2 ^ lo)) by (apply Z.lor_nonneg; lia).
  split; [exact P2|]. apply bits_bound; [lia|exact P2|]. intros i I. rewrite Z.lor_spec, (small_bits w n), placed_bit by lia. reflexivity.
Qed.
Lemma with_free : forall n w f g, shaped n f -> shaped n g -> free w f -> free w g -> apart f g -> free (with_field w f) g.
Proof.
  intros n w [[hi lo] v] [[h2 l2] v2] [L H] [L2 H2] C C2 A i I. rewrite with_lor by assumption. cbn [free] in C2. rewrite Z.lor_spec, C2 by exact I.
  apply placed_bit; cbn [apart] in A; lia.
Qed.
Fixpoint all_fields (w : Z) (fs : list ((Z * Z) * Z)) : Z :=
  match fs with [] => w | f :: fs => all_fields (with_field w f) fs end.
Lemma pack_apart : forall n fs w, Forall (shaped n) fs -> ForallOrdPairs apart fs -> Forall (free w) fs -> Forall fits_field fs -> 0 <= w < 2 ^ n ->
  pack_bits w fs = Ok (all_fields w fs) /\ 0 <= all_fields w fs < 2 ^ n.
Proof.
  intros n. induction fs as [|[[hi lo] v] fs IH]; intros w S A F V W; cbn [pack_bits all_fields]; [auto|].
  inversion S as [|? ? S1 S2]; subst. inversion A as [|? ? A1 A2]; subst. inversion F as [|? ? F1 F2]; subst. inversion V as [|? ? V1 V2]; subst.
  assert (E : pack_bits_step w ((hi, lo), v) = Ok (with_field w ((hi, lo), v))).
  { destruct S1 as [L H]. destruct (pack_bits_step_ok w ((hi, lo), v)) as [X _]; [cbn; lia|]. rewrite X.
    - unfold f_val, f_width, f_hi, f_lo. cbn [fst snd]. rewrite Z.shiftl_mul_pow2 by lia. rewrite with_lor by assumption. reflexivity.
    - unfold field_ok, f_val, f_width, f_hi, f_lo. cbn [fst snd]. cbn [fits_field] in V1. replace (hi - lo + 1 - 1) with (hi - lo) by lia. lia. }
  rewrite E. cbn [rbind]. apply IH; auto.
  - rewrite Forall_forall in *. intros g G. apply (with_free n); auto.
  - apply with_bound; assumption.
Qed.
(** Replacing the value 0 of one field by another value. *)
Lemma all_fields_add : forall fs w x, all_fields (w + x) fs = all_fields w fs + x.
Proof.
  induction fs as [|[[hi lo] v] fs IH]; intros w x; [reflexivity|]. cbn [all_fields]. rewrite <- IH. f_equal. cbn [with_field]. lia.
Qed.

(** ** Operands *)

Lemma gregs_eq : gregs = gprs. Proof. reflexivity. Qed.
Lemma fregs_eq : fregs = fprs. Proof. reflexivity. Qed.
Lemma nth_reg_In : forall l t, (exists n, nth_reg l t n) <-> In (lower t) l.
Proof.
  intros l t. split.
  - intros (n & _ & H). apply nth_error_In in H. exact H.
  - intros H. apply In_nth_error in H. destruct H as (n & H). exists (Z.of_nat n). split; [lia|]. rewrite Nat2Z.id. exact H.
Qed.
Lemma nodup_nth : forall (l : list str), NoDup l -> forall t n m, nth_reg l t n -> nth_reg l t m -> n = m.
Proof.
  intros l ND t n m [P H] [Q G]. apply Z2Nat.inj; try assumption. apply (proj1 (NoDup_nth_error l) ND); [|congruence].
  apply nth_error_Some. congruence.
Qed.
Lemma nodupb_nodup : forall l, nodupb l = true -> NoDup l.
Proof.
  induction l as [|x l IH]; intros H; [constructor|]. cbn [nodupb] in H. apply andb_prop in H. destruct H as [H1 H2]. constructor; [|auto].
  intros I. apply str_in_In in I. rewrite I in H1. discriminate.
Qed.
Lemma gprs_nodup : NoDup gprs.
Proof. apply nodupb_nodup. vm_compute. reflexivity. Qed.
Lemma fprs_nodup : NoDup fprs.
Proof. apply nodupb_nodup. vm_compute. reflexivity. Qed.
Lemma nth_reg_range : forall l t n, length l = 32%nat -> nth_reg l t n -> 0 <= n < 32.
Proof.
  intros l t n L [P H]. split; [exact P|]. assert (X : nth_error l (Z.to_nat n) <> None) by congruence. apply nth_error_Some in X. rewrite L in X. lia.
Qed.

(** The number of a register is read from its name. *)
Lemma lower_digit : forall c, is_digit (lower_chr c) = true -> lower_chr c = c.
Proof. intros [[] [] [] [] [] [] [] []] H; try reflexivity; vm_compute in H; discriminate H. Qed.
Lemma lower_digits : forall t, isdigit (lower t) = true -> lower t = t.
Proof.
  intros t H. unfold isdigit in H. assert (G : forallb is_digit (lower t) = true) by (destruct (lower t); [discriminate|exact H]). clear H.
  induction t as [|c t IH]; [reflexivity|]. cbn [lower map forallb] in *. apply andb_prop in G. destruct G as [G1 G2].
  rewrite (lower_digit _ G1). f_equal. exact (IH G2).
Qed.
Definition reads_back (l : list str) : bool :=
  forallb (fun '(n, t) => isdigit (skipn 1 t) && match py_int 10 (skipn 1 t) with Some v => v =? Z.of_nat n | None => false end) (combine (seq 0 32) l).
Lemma gprs_back : reads_back gprs = true. Proof. vm_compute. reflexivity. Qed.
Lemma fprs_back : reads_back fprs = true. Proof. vm_compute. reflexivity. Qed.
Lemma reg_number_run : forall l t n s, length l = 32%nat -> reads_back l = true -> nth_reg l t n -> reg_number t s = (s, Ok n).
Proof.
  intros l t n s L B R. pose proof (nth_reg_range _ _ _ L R) as RG. destruct R as [P H]. unfold reads_back in B. rewrite forallb_forall in B.
  assert (I : In (Z.to_nat n, lower t) (combine (seq 0 32) l)).
  { apply (nth_error_In _ (Z.to_nat n)). rewrite <- L. clear -H. assert (G : forall (l : list str) k i x, nth_error l i = Some x ->
      nth_error (combine (seq k (length l)) l) i = Some ((k + i)%nat, x)).
    { induction l0 as [|y l0 IH]; intros k [|i] x E; try discriminate; cbn [length seq combine nth_error] in *.
      - injection E as ->. rewrite Nat.add_0_r. reflexivity.
      - rewrite (IH (S k) i x E). do 2 f_equal. lia. }
    apply (G l 0%nat). exact H. }
  apply B in I. apply andb_prop in I. destruct I as [D V]. unfold reg_number. unfold lower in D, V. rewrite skipn_map in D, V. fold (lower (skipn 1 t)) in D, V.
  rewrite (lower_digits _ D) in V. destruct (py_int 10 (skipn 1 t)) as [v|]; [|discriminate]. apply Z.eqb_eq in V. unfold ret. do 2 f_equal. lia.
Qed.

(** Kinds and operands. *)
Definition kind_op (k : kind) : option operand :=
  match k with
  | KGreg => Some Gpr | KG0reg => Some Gpr0 | KFreg => Some Fpr | KPcrel => Some Distance | KBaddr => Some Address
  | KSi | KSnum => Some Signed | KHi | KUi | KNum | KNum0 => Some Unsigned
  | _ => None
  end.
Definition item_field (i : item) : option field :=
  let '(pos, len, k) := i in match kind_op k with Some o => Some (o, 32 - pos - len, 31 - pos) | None => None end.
Definition item_ok (i : item) : bool :=
  let '(pos, len, k) := i in (1 <=? len) && (0 <=? pos) && (pos + len <=? 32) &&
    match k with KGreg | KG0reg | KFreg => len =? 5 | _ => true end.

Lemma view_reads1 : forall s s2 f t v ds, same_view s s2 -> reads1 s f t v ds -> reads1 s2 f t v ds.
Proof.
  intros s s2 f t v ds (L & O & G & _) R. assert (PC : pc s2 = pc s) by (unfold pc; congruence).
  assert (NB : forall f t sg rel g v ds, number s f t sg rel g v ds -> number s2 f t sg rel g v ds).
  { intros ? ? ? ? ? ? ? N. destruct N as [z P N|P N]; unfold num, not_num in N; rewrite <- L in N; [apply n_num|apply n_name]; [exact P|exact N|exact P|exact N]. }
  destruct R; try (constructor; assumption); [apply r_signed|apply r_unsigned|apply r_distance; rewrite PC|apply r_address]; apply NB; assumption.
Qed.
Lemma view_reads_all : forall s s2 fs ts vs ds, same_view s s2 -> reads_all s fs ts vs ds -> reads_all s2 fs ts vs ds.
Proof. intros s s2 fs ts vs ds V R. induction R; constructor; [eapply view_reads1; eassumption|exact IHR]. Qed.
Lemma view_back : forall s ds, same_view (referring s ds) s.
Proof. intros s ds. destruct (view_referring ds s) as (A & B & C & D). repeat split; symmetry; assumption. Qed.

Lemma other_iff : forall t, imatch1 (PFun is_other) t = true <-> plain_word t.
Proof.
  intros t. cbn [imatch1]. unfold is_other, plain_word. rewrite gregs_eq, fregs_eq. destruct (str_in t (gprs ++ fprs)) eqn:E; cbn [negb].
  - apply str_in_In in E. split; [discriminate|contradiction].
  - split; [|reflexivity]. intros _ I. apply str_in_In in I. congruence.
Qed.
Lemma value_iff : forall s t pos len rel g sg s1 v o,
  (imatch1 (PFun is_other) t = true /\ ppc_value t (pos + len - 1, pos) rel g sg s = (s1, Ok v)) <->
  exists ds, number s (o, 32 - pos - len, 31 - pos) t (sg || negb (rel =? 0)) rel g v ds /\ s1 = referring s ds.
Proof.
  intros s t pos len rel g sg s1 v o. rewrite other_iff. unfold ppc_value. cbn [fst snd].
  assert (RF : LabelData t 4 (pos + len - 1 - pos + 1) rel 0 1 (Some (pos + len - 1, pos)) g None = ppc_ref t (o, 32 - pos - len, 31 - pos) rel g).
  { unfold ppc_ref, SpecMips.word_ref, width. replace (31 - (32 - pos - len)) with (pos + len - 1) by lia. replace (31 - (31 - pos)) with pos by lia. replace (31 - pos - (32 - pos - len) + 1) with (pos + len - 1 - pos + 1) by lia. reflexivity. }
  rewrite RF. rewrite poil_eq. unfold ppc_ref at 1 2 3. unfold SpecMips.word_ref. cbn [ld_label ld_bits_size ld_relative]. split.
  - intros [P H]. destruct (parse_integer ppc_p (labels s) t _ _) as [[z|]|] eqn:E; [| |discriminate].
    + injection H as <- <-. exists []. split; [|reflexivity]. apply n_num; assumption.
    + injection H as <- <-. eexists. split; [apply n_name; assumption|]. reflexivity.
  - intros (ds & N & ->). split; [destruct N; assumption|]. destruct N as [z P N|P N]; unfold num, not_num in N; change ppc with ppc_p in N; rewrite N; reflexivity.
Qed.
Lemma item_iff : forall i f t s s1 v, item_ok i = true -> item_field i = Some f ->
  (imatch1 (kind_pattern (item_kind i)) t = true /\ kind_eval (item_kind i) t (item_bits i) s = (s1, Ok v)) <->
  exists ds, reads1 s f t v ds /\ s1 = referring s ds.
Proof.
  intros [[pos len] k] f t s s1 v OK F. cbn [item_field] in F. unfold item_kind, item_bits. cbn [snd].
  destruct k; cbn [kind_op] in F; try discriminate F; injection F as <-; cbn [kind_pattern kind_eval].
  - cbn [imatch1]. unfold is_greg. rewrite gregs_eq. split.
    + intros [M H]. destruct (str_eqb (lower t) #"r0") eqn:E; [discriminate|]. apply str_in_In in M. apply nth_reg_In in M. destruct M as (n & N).
      rewrite (reg_number_run gprs t n s eq_refl gprs_back N) in H. injection H as <- <-. exists []. split; [|reflexivity]. constructor; [exact N|].
      intros ->. destruct N as [_ N]. cbn in N. injection N as N. rewrite <- N in E. discriminate E.
    + intros (ds & R & ->). inversion R; subst. rewrite (reg_number_run gprs t v s eq_refl gprs_back) by assumption. split; [|reflexivity].
      destruct (str_eqb (lower t) #"r0") eqn:E.
      * apply str_eqb_eq in E. exfalso. match goal with N : nth_reg _ _ _, X : v <> 0 |- _ => apply X; apply (nodup_nth gprs gprs_nodup t); [exact N|] end.
        split; [lia|]. rewrite E. reflexivity.
      * apply str_in_In. apply nth_reg_In. eauto.
  - cbn [imatch1]. unfold is_g0reg. rewrite gregs_eq. split.
    + intros [M H]. destruct (str_eqb (lower t) #"0") eqn:E.
      * apply str_eqb_eq in E. assert (t = #"0") as ->. { rewrite <- E. symmetry. apply lower_digits. rewrite E. reflexivity. }
        cbn [str_eqb] in H. injection H as <- <-. exists []. split; [apply r_zero|reflexivity].
      * apply str_in_In in M. apply nth_reg_In in M. destruct M as (n & N). destruct (str_eqb t #"0") eqn:E2; [apply str_eqb_eq in E2; subst t; discriminate E|].
        rewrite (reg_number_run gprs t n s eq_refl gprs_back N) in H. injection H as <- <-. exists []. split; [|reflexivity]. constructor; exact N.
    + intros (ds & R & ->). inversion R; subst; [|split; reflexivity].
      match goal with X : nth_reg _ _ _ |- _ => rename X into NR end.
      assert (I : In (lower t) gprs) by (apply nth_reg_In; eauto). destruct (str_eqb t #"0") eqn:E.
      * apply str_eqb_eq in E. subst t. apply str_in_In in I. discriminate I.
      * rewrite (reg_number_run gprs t v s eq_refl gprs_back NR). split; [|reflexivity]. destruct (str_eqb (lower t) #"0"); [reflexivity|]. apply str_in_In. exact I.
  - cbn [imatch1]. unfold is_freg. rewrite fregs_eq. split.
    + intros [M H]. apply str_in_In in M. apply nth_reg_In in M. destruct M as (n & N).
      rewrite (reg_number_run fprs t n s eq_refl fprs_back N) in H. injection H as <- <-. exists []. split; [|reflexivity]. constructor; exact N.
    + intros (ds & R & ->). inversion R; subst. rewrite (reg_number_run fprs t v s eq_refl fprs_back) by assumption. split; [|reflexivity].
      apply str_in_In. apply nth_reg_In. eauto.
  - unfold bind, get. rewrite (value_iff s t pos len (pc s) _ false s1 v Distance). cbn [orb].
    split; intros (ds & R & E); exists ds; (split; [|exact E]); [constructor; exact R|inversion R; assumption].
  - rewrite (value_iff s t pos len 0 _ false s1 v Address). cbn [orb Z.eqb negb].
    split; intros (ds & R & E); exists ds; (split; [|exact E]); [constructor; exact R|inversion R; assumption].
  - rewrite (value_iff s t pos len 0 _ true s1 v Signed). cbn [orb Z.eqb negb].
    split; intros (ds & R & E); exists ds; (split; [|exact E]); [constructor; exact R|inversion R; assumption].
  - rewrite (value_iff s t pos len 0 _ false s1 v Unsigned). cbn [orb Z.eqb negb].
    split; intros (ds & R & E); exists ds; (split; [|exact E]); [constructor; exact R|inversion R; assumption].
  - rewrite (value_iff s t pos len 0 _ false s1 v Unsigned). cbn [orb Z.eqb negb].
    split; intros (ds & R & E); exists ds; (split; [|exact E]); [constructor; exact R|inversion R; assumption].
  - rewrite (value_iff s t pos len 0 _ false s1 v Unsigned). cbn [orb Z.eqb negb].
    split; intros (ds & R & E); exists ds; (split; [|exact E]); [constructor; exact R|inversion R; assumption].
  - rewrite (value_iff s t pos len 0 _ false s1 v Unsigned). cbn [orb Z.eqb negb].
    split; intros (ds & R & E); exists ds; (split; [|exact E]); [constructor; exact R|inversion R; assumption].
  - rewrite (value_iff s t pos len 0 _ true s1 v Signed). cbn [orb Z.eqb negb].
    split; intros (ds & R & E); exists ds; (split; [|exact E]); [constructor; exact R|inversion R; assumption].
Qed.
(** Every value fits its field. *)
Definition in_word (f : field) : Prop := let '(_, a, b) := f in 0 <= a <= b /\ b <= 31.
Definition field_at (f : field) (v : Z) : (Z * Z) * Z := let '(_, a, b) := f in ((31 - a, 31 - b), v).
Lemma item_shape : forall i f, item_ok i = true -> item_field i = Some f -> in_word f /\ (forall v, (item_bits i, v) = field_at f v) /\
  (let '(o, a, b) := f in o = Gpr \/ o = Gpr0 \/ o = Fpr -> b - a + 1 = 5).
Proof.
  intros [[pos len] k] f OK F. cbn [item_field] in F. destruct (kind_op k) as [o|] eqn:K; [|discriminate F]. assert (f = (o, 32 - pos - len, 31 - pos)) as -> by congruence. clear F.
  unfold item_ok in OK. rewrite !andb_true_iff in OK. destruct OK as [[[A B] C] D].
  apply Z.leb_le in A, B, C. split; [unfold in_word; lia|]. split.
  - intros v. unfold item_bits, field_at. replace (31 - (32 - pos - len)) with (pos + len - 1) by lia. replace (31 - (31 - pos)) with pos by lia. reflexivity.
  - intros O. destruct k; cbn [kind_op] in K; try discriminate K; injection K as <-; try apply Z.eqb_eq in D; try lia; destruct O as [O|[O|O]]; discriminate O.
Qed.
Lemma reads1_fits : forall s f t v ds, in_word f -> (let '(o, a, b) := f in o = Gpr \/ o = Gpr0 \/ o = Fpr -> b - a + 1 = 5) ->
  reads1 s f t v ds -> fits_field (field_at f v).
Proof.
  intros s f t v ds W REG R.
  assert (NB : forall f t sg rel g v ds, in_word f -> number s f t sg rel g v ds -> fits_field (field_at f v)).
  { intros [[o a] b] t' sg rel g v' ds' I N. cbn [in_word] in I. cbn [field_at fits_field].
    replace (31 - a - (31 - b) + 1) with (b - a + 1) by lia. replace (31 - a - (31 - b)) with (b - a) by lia.
    assert (0 < 2 ^ (b - a)) by (apply Z.pow_pos_nonneg; lia). assert (0 < 2 ^ (b - a + 1)) by (apply Z.pow_pos_nonneg; lia).
    destruct N as [z _ N|_ N]; [|lia]. cbn [width] in N. pose proof (num_range _ _ _ _ _ _ N ltac:(lia)) as X.
    replace (b - a + 1 - 1) with (b - a) in X by lia. exact X. }
  assert (RG : forall o a b n, 0 <= n < 32 -> b - a + 1 = 5 -> fits_field (field_at (o, a, b) n)).
  { intros o a b n N E. cbn [field_at fits_field]. replace (31 - a - (31 - b) + 1) with 5 by lia. replace (31 - a - (31 - b)) with 4 by lia. cbn. lia. }
  destruct R; try (eapply NB; eassumption); apply RG; try lia; try (eapply nth_reg_range; [|eassumption]; reflexivity); apply REG; tauto.
Qed.

(** ** Conditions *)

Fixpoint shape (c : list item) : option (list field) :=
  match c with
  | [] => Some []
  | i :: c => match item_field i, shape c with Some f, Some fs => Some (f :: fs) | _, _ => None end
  end.
Fixpoint fields_at (fs : list field) (vs : list Z) : list ((Z * Z) * Z) :=
  match fs, vs with f :: fs, v :: vs => field_at f v :: fields_at fs vs | _, _ => [] end.
Definition patterns (c : list item) : list pattern := map (fun i => kind_pattern (item_kind i)) c.

Lemma fields_iff : forall c fs, shape c = Some fs -> forallb item_ok c = true -> forall ts s s1 r,
  (Forall2 (fun p t => imatch1 p t = true) (patterns c) ts /\ ppc_fields c ts s = (s1, Ok r)) <->
  exists vs ds, reads_all s fs ts vs ds /\ s1 = referring s ds /\ r = fields_at fs vs.
Proof.
  induction c as [|i c IH]; intros fs SH OK ts s s1 r.
  - injection SH as <-. split.
    + intros [F H]. inversion F; subst. injection H as <- <-. exists [], []. split; [constructor|auto].
    + intros (vs & ds & R & -> & ->). inversion R; subst. split; [constructor|reflexivity].
  - cbn [shape] in SH. destruct (item_field i) as [f|] eqn:FI; [|discriminate SH]. destruct (shape c) as [fs'|] eqn:FC; [|discriminate SH]. injection SH as <-.
    cbn [forallb] in OK. apply andb_prop in OK. destruct OK as [OK1 OK2]. specialize (IH fs' eq_refl OK2).
    destruct (item_shape i f OK1 FI) as (_ & AT & _). split.
    + intros [F H]. cbn [patterns map] in F. inversion F as [|p t ps ts' F1 F2]; subst. cbn [ppc_fields] in H. unfold bind in H.
      destruct (kind_eval (item_kind i) t (item_bits i) s) as [sa [v|e]] eqn:K; [|discriminate H].
      destruct (proj1 (item_iff i f t s sa v OK1 FI) (conj F1 K)) as (d & R1 & ->).
      destruct (ppc_fields c ts' (referring s d)) as [sb [r'|e]] eqn:K2; [|discriminate H]. unfold ret in H. injection H as <- <-.
      destruct (proj1 (IH ts' (referring s d) sb r') (conj F2 K2)) as (vs & ds & R2 & -> & ->).
      exists (v :: vs), (d ++ ds). split; [constructor; [exact R1|eapply view_reads_all; [|exact R2]; apply view_back]|].
      split; [rewrite referring_app; reflexivity|]. cbn [fields_at]. rewrite AT. reflexivity.
    + intros (vs & ds & R & -> & ->). inversion R as [|? ? t ts' v vs' d ds' R1 R2]; subst.
      destruct (proj2 (item_iff i f t s (referring s d) v OK1 FI)) as [M K]; [eauto|].
      destruct (proj2 (IH ts' (referring s d) (referring (referring s d) ds') (fields_at fs' vs'))) as [M2 K2].
      { exists vs', ds'. split; [|auto]. eapply view_reads_all; [apply view_referring|exact R2]. }
      split; [cbn [patterns map]; constructor; assumption|]. cbn [ppc_fields]. unfold bind. rewrite K, K2. unfold ret. rewrite referring_app. cbn [fields_at]. rewrite AT. reflexivity.
Qed.
(** A condition with one of the names bound to None delivers nothing. *)
Lemma fields_none : forall c, shape c = None -> forall ts s s1 r, ppc_fields c ts s <> (s1, Ok r).
Proof.
  induction c as [|[[pos len] k] c IH]; intros SH ts s s1 r H; [discriminate SH|]. cbn [shape] in SH. destruct ts as [|t ts]; [discriminate H|].
  cbn [ppc_fields] in H. unfold bind in H.
  destruct (item_field (pos, len, k)) as [f|] eqn:FI.
  - destruct (kind_eval _ _ _ s) as [sa [v|e]]; [|discriminate H]. destruct (shape c); [discriminate SH|].
    destruct (ppc_fields c ts sa) as [sb [r'|e]] eqn:K; [|discriminate H]. exact (IH eq_refl _ _ _ _ K).
  - cbn [item_field] in FI. unfold item_kind in H. cbn [snd] in H. destruct k; cbn [kind_op] in FI; try discriminate FI; discriminate H.
Qed.

Definition free_bits (base : Z) (i : item) : bool :=
  let '(pos, len, _) := i in (base / 2 ^ pos) mod 2 ^ len =? 0.
Definition disjoint (i j : item) : bool :=
  let '(p, m, _) := i in let '(q, n, _) := j in (p + m <=? q) || (q + n <=? p).
Fixpoint pairwise (c : list item) : bool :=
  match c with [] => true | i :: c => forallb (disjoint i) c && pairwise c end.
Definition cond_ok (base : Z) (c : list item) : bool :=
  (0 <=? base) && (base <? 2 ^ 32) && forallb item_ok c && forallb (free_bits base) c && pairwise c.

Lemma filled_eq : forall fs vs w, Forall in_word fs -> filled w fs vs = all_fields w (fields_at fs vs).
Proof.
  induction fs as [|[[o a] b] fs IH]; intros [|v vs] w I; try reflexivity. inversion I as [|? ? I1 I2]; subst.
  cbn [filled fields_at all_fields]. rewrite IH by exact I2. f_equal. cbn [field_at with_field]. unfold put.
  replace (31 - a - (31 - b) + 1) with (b - a + 1) by lia. reflexivity.
Qed.
Lemma reads_length : forall s fs ts vs ds, reads_all s fs ts vs ds -> length vs = length fs /\ length ts = length fs.
Proof. intros s fs ts vs ds R. induction R as [|? ? ? ? ? ? ? ? ? ? [A B]]; cbn [length]; [auto|]. split; f_equal; assumption. Qed.
Lemma shape_facts : forall base c fs, shape c = Some fs -> cond_ok base c = true -> forall s ts vs ds, reads_all s fs ts vs ds ->
  0 <= base < 2 ^ 32 /\ Forall in_word fs /\ Forall (shaped 32) (fields_at fs vs) /\ ForallOrdPairs apart (fields_at fs vs) /\ Forall (free base) (fields_at fs vs) /\ Forall fits_field (fields_at fs vs).
Proof.
  intros base c fs SH OK s ts vs ds R. unfold cond_ok in OK. rewrite !andb_true_iff in OK. destruct OK as [[[[B1 B2] I] FR] PW].
  split; [lia|]. clear B1 B2. revert c SH I FR PW. induction R as [|f fs t ts v vs d ds R1 R IH]; intros c SH I FR PW.
  - repeat split; constructor.
  - destruct c as [|i c]; [discriminate SH|]. cbn [shape] in SH. destruct (item_field i) as [f'|] eqn:FI; [|discriminate SH].
    destruct (shape c) as [fs'|] eqn:FC; [|discriminate SH]. injection SH as -> ->.
    cbn [forallb pairwise] in I, FR, PW. rewrite !andb_true_iff in I, FR, PW. destruct I as [I1 I2], FR as [FR1 FR2], PW as [PW1 PW2].
    destruct (IH c FC I2 FR2 PW2) as (W & SP & AP & FE & FT). destruct (item_shape i f I1 FI) as (IW & AT & REG). cbn [fields_at].
    split; [constructor; assumption|]. assert (IT := I1). destruct i as [[pos len] k]. unfold item_ok in I1. rewrite !andb_true_iff in I1. destruct I1 as [[[L1 L2] L3] _].
    pose proof (AT v) as ATv. unfold item_bits in ATv.
    split; [constructor; [|exact SP]; rewrite <- ATv; cbn [shaped]; lia|].
    split; [|split].
    + constructor; [|exact AP]. rewrite <- ATv. clear -PW1 FC I2 L1 L2 L3. revert fs vs FC. induction c as [|j c IHc]; intros fs vs FC.
      * injection FC as <-. constructor.
      * cbn [shape] in FC. destruct (item_field j) as [g|] eqn:FJ; [|discriminate FC]. destruct (shape c) as [gs|]; [|discriminate FC]. injection FC as <-.
        cbn [forallb] in PW1, I2. apply andb_prop in PW1, I2. destruct PW1 as [P1 P2], I2 as [I1 I2]. destruct vs as [|u vs]; [constructor|]. cbn [fields_at].
        constructor; [|apply IHc; auto]. destruct (item_shape j g I1 FJ) as (_ & ATj & _). rewrite <- ATj. destruct j as [[q n] k'].
        unfold disjoint in P1. unfold item_bits. cbn [apart]. apply orb_prop in P1. destruct P1 as [P1|P1]; apply Z.leb_le in P1; lia.
    + constructor; [|exact FE]. rewrite <- ATv. cbn [free]. apply Z.leb_le in L1, L2, L3. apply clear_mod; [lia|]. unfold free_bits in FR1. apply Z.eqb_eq in FR1.
      replace (pos + len - 1 - pos + 1) with len by lia. exact FR1.
    + constructor; [|exact FT]. eapply reads1_fits; eassumption.
Qed.

(** One condition by itself. *)
Definition cond_run (base : Z) (c : list item) (tokens : list str) : M (option bytes) :=
  let! fs := ppc_fields c (tl tokens) in
  let! v := lift (pack_bits base fs) in
  let! b := lift (pack_be32u [Some v]) in
  ret (Some b).
Definition accepts (c : list item) (ops : list str) : Prop := Forall2 (fun p t => imatch1 p t = true) (patterns c) ops.
Lemma pack_word : forall w, 0 <= w < 2 ^ 32 -> pack_be32u [Some w] = Ok (SpecMips.word_bytes true w).
Proof. intros w W. rewrite word_bytes_eq by exact W. unfold pack_be32u. rewrite pack_one; [reflexivity|reflexivity|reflexivity|exact W]. Qed.
Lemma cond_iff : forall base c fs, shape c = Some fs -> cond_ok base c = true -> forall t0 ops s s1 b,
  (accepts c ops /\ cond_run base c (t0 :: ops) s = (s1, Ok (Some b))) <->
  exists w ds, encodes s (base, fs) ops w ds /\ s1 = referring s ds /\ b = SpecMips.word_bytes true w.
Proof.
  intros base c fs SH OK t0 ops s s1 b. pose proof OK as OK'. unfold cond_ok in OK'. rewrite !andb_true_iff in OK'. destruct OK' as [[[_ I] _] _].
  unfold cond_run, bind. cbn [tl]. split.
  - intros [A H]. destruct (ppc_fields c ops s) as [sa [r|e]] eqn:K; [|discriminate H].
    destruct (proj1 (fields_iff c fs SH I ops s sa r) (conj A K)) as (vs & ds & R & -> & ->).
    destruct (shape_facts base c fs SH OK s ops vs ds R) as (B & W & SP & AP & FR & FT). destruct (pack_apart 32 _ base SP AP FR FT B) as [P BD].
    unfold lift in H. rewrite P, pack_word in H by exact BD. unfold ret in H. injection H as <- <-.
    exists (all_fields base (fields_at fs vs)), ds. split; [|auto]. exists vs. split; [exact R|]. cbn [fst snd]. rewrite filled_eq by exact W. reflexivity.
  - intros (w & ds & (vs & R & ->) & -> & ->). cbn [fst snd] in *. destruct (proj2 (fields_iff c fs SH I ops s (referring s ds) (fields_at fs vs))) as [A K]; [eauto|].
    split; [exact A|]. rewrite K. destruct (shape_facts base c fs SH OK s ops vs ds R) as (B & W & SP & AP & FR & FT).
    destruct (pack_apart 32 _ base SP AP FR FT B) as [P BD]. unfold lift. rewrite P, pack_word by exact BD. rewrite filled_eq by exact W. reflexivity.
Qed.
Lemma cond_none : forall base c tokens s s1 b, shape c = None -> cond_run base c tokens s <> (s1, Ok (Some b)).
Proof.
  intros base c tokens s s1 b SH H. unfold cond_run, bind in H. destruct (ppc_fields c (tl tokens) s) as [sa [r|e]] eqn:K; [|discriminate H].
  exact (fields_none c SH _ _ _ _ K).
Qed.

(** ** The conditions of a name *)

Definition cond_items (c : option (list item)) : list item := match c with Some c => c | None => [] end.
Fixpoint call_all (base : Z) (cs : list (list item)) (t0 : str) (ops : list str) : M (option bytes) :=
  match cs with
  | [] => ret None
  | c :: cs => if imatch (t0 :: ops) 1 (patterns c) then cond_run base c (t0 :: ops) else call_all base cs t0 ops
  end.
Lemma call_eq : forall base cs t0 ops s, ppc_call base cs (t0 :: ops) s = call_all base (map cond_items cs) t0 ops s.
Proof.
  induction cs as [|[c|] cs IH]; intros t0 ops s; cbn [ppc_call call_all map cond_items]; [reflexivity| |].
  - fold (patterns c). destruct (imatch _ _ _); [reflexivity|apply IH].
  - destruct ops as [|o ops]; cbn [length Nat.eqb]; [|apply IH]. reflexivity.
Qed.
(** A condition that leaves a later one of the same length no words. *)
Definition kind_eqb (a b : kind) : bool :=
  match a, b with
  | KGreg, KGreg | KG0reg, KG0reg | KFreg, KFreg | KPcrel, KPcrel | KBaddr, KBaddr | KSi, KSi | KHi, KHi | KUi, KUi | KNum, KNum | KNum0, KNum0
  | KSnum, KSnum => true
  | _, _ => false
  end.
Fixpoint wider (c d : list item) : bool :=
  match c, d with
  | [], [] => true
  | (_, _, k) :: c, (_, _, k') :: d => (match kind_op k with None => true | Some _ => kind_eqb k k' end) && wider c d
  | _, _ => false
  end.
Definition same_len (c d : list item) : bool := Nat.eqb (length c) (length d).
(** The conditions that can be reached and deliver something. *)
Fixpoint live (cs : list (list item)) : list (list item) :=
  match cs with
  | [] => []
  | c :: cs => match shape c with Some _ => c :: live cs | None => filter (fun d => negb (same_len c d)) (live cs) end
  end.
Fixpoint orderly (cs : list (list item)) : bool :=
  match cs with
  | [] => true
  | c :: cs => orderly cs && match shape c with
                             | Some _ => forallb (fun d => negb (same_len c d)) (live cs)
                             | None => forallb (fun d => if same_len c d then wider c d else true) (live cs)
                             end
  end.
Lemma kind_eqb_eq : forall a b, kind_eqb a b = true -> a = b.
Proof. intros [] [] H; try reflexivity; discriminate H. Qed.
Lemma wider_accepts : forall c d ops, wider c d = true -> accepts d ops -> accepts c ops.
Proof.
  induction c as [|[[p m] k] c IH]; intros [|[[q n] k'] d] ops W A; try discriminate W; [exact A|]. cbn [wider] in W. apply andb_prop in W. destruct W as [W1 W2].
  unfold accepts in *. cbn [patterns map] in *. inversion A as [|? t ? ts A1 A2]; subst. constructor; [|apply (IH d); assumption].
  unfold item_kind in *. cbn [snd] in *. destruct (kind_op k) eqn:K; [apply kind_eqb_eq in W1; subst; exact A1|]. destruct k; try discriminate K; reflexivity.
Qed.
Lemma accepts_len : forall c ops, accepts c ops -> length c = length ops.
Proof. intros c ops A. unfold accepts, patterns in A. rewrite <- (map_length (fun i => kind_pattern (item_kind i)) c). induction A; cbn [length]; auto. Qed.
Lemma accepts_same : forall c d ops, accepts c ops -> accepts d ops -> same_len c d = true.
Proof. intros c d ops A B. unfold same_len. apply Nat.eqb_eq. rewrite (accepts_len c ops A), (accepts_len d ops B). reflexivity. Qed.
Lemma imatch_accepts : forall t0 ops c, imatch (t0 :: ops) 1 (patterns c) = true <-> accepts c ops.
Proof. intros. apply imatch_cons. Qed.
Lemma live_shape : forall cs d, In d (live cs) -> In d cs /\ shape d <> None.
Proof.
  induction cs as [|c cs IH]; intros d I; [destruct I|]. cbn [live] in I. destruct (shape c) eqn:S.
  - destruct I as [<- |I]; [split; [left; reflexivity|congruence]|]. destruct (IH d I). split; [right|]; assumption.
  - apply filter_In in I. destruct (IH d (proj1 I)). split; [right|]; assumption.
Qed.
Lemma live_iff : forall base cs, orderly cs = true -> forall t0 ops s s1 b,
  call_all base cs t0 ops s = (s1, Ok (Some b)) <->
  exists c, In c (live cs) /\ accepts c ops /\ cond_run base c (t0 :: ops) s = (s1, Ok (Some b)).
Proof.
  intros base. induction cs as [|c cs IH]; intros O t0 ops s s1 b; cbn [call_all live].
  - split; [discriminate|]. intros (c & [] & _).
  - cbn [orderly] in O. apply andb_prop in O. destruct O as [O1 O2]. specialize (IH O1 t0 ops s s1 b).
    destruct (imatch (t0 :: ops) 1 (patterns c)) eqn:M.
    + apply imatch_accepts in M. destruct (shape c) eqn:S.
      * rewrite forallb_forall in O2. split; [intros H; exists c; split; [left; reflexivity|auto]|].
        intros (d & [<- |I] & A & R); [exact R|]. apply O2 in I. rewrite (accepts_same c d ops M A) in I. discriminate I.
      * split; [intros H; exfalso; exact (cond_none _ _ _ _ _ _ S H)|]. intros (d & I & A & R). apply filter_In in I. destruct I as [_ I].
        rewrite (accepts_same c d ops M A) in I. discriminate I.
    + assert (NM : ~ accepts c ops) by (intros A; apply (imatch_accepts t0) in A; congruence). rewrite IH. destruct (shape c) eqn:S.
      * split; [intros (d & I & X); exists d; split; [right; exact I|exact X]|]. intros (d & [<- |I] & A & R); [contradiction|eauto].
      * rewrite forallb_forall in O2. split.
        -- intros (d & I & A & R). exists d. split; [|auto]. apply filter_In. split; [exact I|]. destruct (same_len c d) eqn:L; [|reflexivity].
           apply O2 in I. rewrite L in I. exfalso. apply NM. eapply wider_accepts; eassumption.
        -- intros (d & I & X). apply filter_In in I. exists d. split; [apply I|exact X].
Qed.
