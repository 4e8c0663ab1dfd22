(** Lemmas for processors with instruction words made of bit fields. *)
From Coq Require Import Lia.
From Verif Require Import Py PyFacts Utils Tokenizer State Assembler SpecUtils UtilsFacts SpecParse ParseFacts SpecExec SpecCpu Instr CpuFacts.
Local Open Scope Z_scope.

(** ** Tables with names in lower case *)

Lemma register_all_upper : forall V p (l : list (str * V)), case_sensitive p = false ->
  nodupb (map upper (map fst l)) = true ->
  register_all p [] l = map (fun '(n, v) => (upper n, v)) l.
Proof.
  intros V p l CS.
  assert (G : forall (l t : list (str * V)), nodupb (map upper (map fst l)) = true ->
    (forall k, In k (map upper (map fst l)) -> ~ In k (map fst t)) ->
    register_all p t l = t ++ map (fun '(n, v) => (upper n, v)) l).
  { clear l. unfold register_all. induction l as [|[n a] l IH]; intros t ND D; [rewrite app_nil_r; reflexivity|].
    cbn [fold_left]. cbn [map fst nodupb] in ND. apply andb_prop in ND. destruct ND as [N1 N2].
    unfold register at 2. rewrite CS. rewrite dset_fresh by (apply D; left; reflexivity).
    rewrite IH; auto.
    - rewrite <- app_assoc. reflexivity.
    - intros k I J. rewrite map_app, in_app_iff in J. cbn [map fst In] in J. destruct J as [J|[<-|[]]].
      + apply (D k); [right; auto|auto].
      + apply negb_true_iff in N1. assert (X : str_in (upper n) (map upper (map fst l)) = true) by (apply str_in_In; auto). congruence. }
  intros ND. apply G; auto.
Qed.

Lemma upper_lower_chr : forall c, upper_chr (lower_chr c) = upper_chr c.
Proof. intros [[] [] [] [] [] [] [] []]; reflexivity. Qed.
Lemma lower_upper_chr : forall c, lower_chr (upper_chr c) = lower_chr c.
Proof. intros [[] [] [] [] [] [] [] []]; reflexivity. Qed.
Lemma upper_lower : forall t, upper (lower t) = upper t.
Proof. intros t. unfold upper, lower. rewrite map_map. apply map_ext. apply upper_lower_chr. Qed.
Lemma lower_upper : forall t, lower (upper t) = lower t.
Proof. intros t. unfold upper, lower. rewrite map_map. apply map_ext. apply lower_upper_chr. Qed.
Lemma upper_eq_lower : forall a b, upper a = upper b <-> lower a = lower b.
Proof.
  intros a b. split; intros H.
  - rewrite <- (lower_upper a), <- (lower_upper b). congruence.
  - rewrite <- (upper_lower a), <- (upper_lower b). congruence.
Qed.

Lemma dget_lower : forall V (l : list (str * V)) t, map lower (map fst l) = map fst l ->
  dget str_eqb (map (fun '(n, v) => (upper n, v)) l) (upper t) = dget str_eqb l (lower t).
Proof.
  induction l as [|[n v] l IH]; intros t H; [reflexivity|]. cbn [map fst] in H. injection H as H1 H2.
  cbn [map dget]. destruct (str_eqb (upper t) (upper n)) eqn:E.
  - apply str_eqb_eq in E. apply upper_eq_lower in E. rewrite H1 in E. rewrite (proj2 (str_eqb_eq _ _) E). reflexivity.
  - destruct (str_eqb (lower t) n) eqn:E2; auto. apply str_eqb_eq in E2. rewrite <- H1 in E2.
    apply upper_eq_lower in E2. rewrite (proj2 (str_eqb_eq _ _) E2) in E. discriminate.
Qed.

(** ** Bit fields, from high to low *)

Lemma lor_disjoint : forall a b n, 0 <= n -> 0 <= b < 2 ^ n -> (2 ^ n | a) -> Z.lor a b = a + b.
Proof.
  intros a b n N B [k ->].
  assert (X : Z.land (k * 2 ^ n) b = 0).
  { apply Z.bits_inj'. intros i I. rewrite Z.land_spec, Z.bits_0.
    destruct (Z.lt_ge_cases i n).
    - rewrite Z.mul_pow2_bits_low by lia. reflexivity.
    - rewrite <- (Z.mod_small b (2 ^ n)) by lia. rewrite Z.mod_pow2_bits_high by lia. apply andb_false_r. }
  rewrite Z.add_nocarry_lxor by exact X. symmetry. apply Z.lxor_lor. exact X.
Qed.

(** A field below all the bits that are set so far. *)
Lemma step_add : forall base hi lo v, 0 <= lo <= hi -> (2 ^ (hi + 1) | base) ->
  - 2 ^ (hi - lo) <= v < 2 ^ (hi - lo + 1) ->
  pack_bits_step base ((hi, lo), v) = Ok (base + (v mod 2 ^ (hi - lo + 1)) * 2 ^ lo).
Proof.
  intros base hi lo v L D R.
  destruct (pack_bits_step_ok base ((hi, lo), v)) as [S1 _]; [cbn; lia|].
  rewrite S1.
  - unfold f_val, f_width, f_hi, f_lo. cbn [fst snd]. f_equal. rewrite Z.shiftl_mul_pow2 by lia.
    apply (lor_disjoint _ _ (hi + 1)); [lia| |exact D].
    pose proof (Z.mod_pos_bound v (2 ^ (hi - lo + 1)) ltac:(apply Z.pow_pos_nonneg; lia)) as B.
    assert (0 < 2 ^ lo) by (apply Z.pow_pos_nonneg; lia).
    replace (2 ^ (hi + 1)) with (2 ^ (hi - lo + 1) * 2 ^ lo) by (rewrite <- Z.pow_add_r by lia; f_equal; lia).
    nia.
  - unfold field_ok, f_val, f_width, f_hi, f_lo. cbn [fst snd]. replace (hi - lo + 1 - 1) with (hi - lo) by lia. lia.
Qed.

(** Fields given from high to low do not overlap. *)
Fixpoint descending (top : Z) (fs : list ((Z * Z) * Z)) : Prop :=
  match fs with
  | [] => True
  | ((hi, lo), v) :: t => 0 <= lo <= hi /\ hi < top /\ descending lo t
  end.
Definition fits_field (f : (Z * Z) * Z) : Prop :=
  let '((hi, lo), v) := f in - 2 ^ (hi - lo) <= v < 2 ^ (hi - lo + 1).
Definition field_sum (fs : list ((Z * Z) * Z)) : Z :=
  fold_right (fun '((hi, lo), v) n => (v mod 2 ^ (hi - lo + 1)) * 2 ^ lo + n) 0 fs.

Lemma pack_sum : forall fs top base, descending top fs -> Forall fits_field fs -> (2 ^ top | base) -> 
  pack_bits base fs = Ok (base + field_sum fs).
Proof.
  induction fs as [|[[hi lo] v] fs IH]; intros top base D F B; cbn [pack_bits field_sum fold_right].
  - f_equal. lia.
  - inversion F; subst. destruct D as (D1 & D2 & D3).
    assert (B1 : (2 ^ (hi + 1) | base)).
    { eapply Z.divide_trans; [|exact B]. exists (2 ^ (top - (hi + 1))). rewrite <- Z.pow_add_r by lia. f_equal. lia. }
    rewrite step_add; auto. cbn [rbind]. rewrite (IH lo); auto.
    + f_equal. unfold field_sum. lia.
    + apply Z.divide_add_r; [|exists (v mod 2 ^ (hi - lo + 1)); lia].
      eapply Z.divide_trans; [|exact B1]. exists (2 ^ (hi + 1 - lo)). rewrite <- Z.pow_add_r by lia. f_equal. lia.
Qed.
Lemma pack_fails : forall fs base, Forall (fun f => 0 <= f_lo f) fs -> ~ Forall field_ok fs ->
  pack_bits base fs = Err (AExc InvalidBitRange).
Proof. intros fs base H N. apply pack_bits_spec; auto. Qed.

Lemma field_sum_bound : forall fs top, 0 <= top -> descending top fs -> 0 <= field_sum fs < 2 ^ top.
Proof.
  induction fs as [|[[hi lo] v] fs IH]; intros top T D; cbn [field_sum fold_right].
  - split; [lia|]. apply Z.pow_pos_nonneg; lia.
  - destruct D as (D1 & D2 & D3). apply IH in D3; [|lia]. fold (field_sum fs).
    pose proof (Z.mod_pos_bound v (2 ^ (hi - lo + 1)) ltac:(apply Z.pow_pos_nonneg; lia)) as B.
    assert (0 < 2 ^ lo) by (apply Z.pow_pos_nonneg; lia).
    assert (2 ^ (hi + 1) = 2 ^ (hi - lo + 1) * 2 ^ lo) by (rewrite <- Z.pow_add_r by lia; f_equal; lia).
    assert (2 ^ (hi + 1) <= 2 ^ top) by (apply Z.pow_le_mono_r; lia). nia.
Qed.

(** Numbers of n bits, signed or not. *)
Lemma num_range : forall p s t n sg v, num p s t n sg v -> 1 <= n -> - 2 ^ (n - 1) <= v < 2 ^ n.
Proof.
  intros p s t n sg v H N. destruct (ParseFacts.parse_integer_range p (labels s) t n sg v N H) as [A B].
  assert (0 < 2 ^ (n - 1)) by (apply Z.pow_pos_nonneg; lia).
  assert (2 ^ n = 2 * 2 ^ (n - 1)) by (rewrite <- Z.pow_succ_r by lia; f_equal; lia).
  destruct sg; [destruct (B eq_refl) as [|[]]|pose proof (A eq_refl)]; lia.
Qed.
Lemma unum_range : forall p s t n v, num p s t n false v -> 1 <= n -> 0 <= v < 2 ^ n.
Proof.
  intros p s t n v H N. destruct (ParseFacts.parse_integer_range p (labels s) t n false v N H) as [X _]. apply X. reflexivity.
Qed.

(** ** Packing a word *)

Lemma pack_one : forall be f mask v, sf_signed f = false -> mask = 2 ^ (8 * Z.of_nat (sf_size f)) - 1 ->
  0 <= v < 2 ^ (8 * Z.of_nat (sf_size f)) ->
  pack_u be f mask [Some v] = Ok (int_bytes be (sf_size f) v).
Proof.
  intros be f mask v S -> R. unfold pack_u. cbn [map struct_pack masked].
  rewrite land_ones_mod by lia. rewrite Z.mod_small by lia. unfold struct_pack1. rewrite S.
  replace ((0 <=? v) && (v <? 2 ^ (8 * Z.of_nat (sf_size f)))) with true by (symmetry; apply andb_true_intro; split; lia).
  cbn [rbind]. rewrite app_nil_r. reflexivity.
Qed.

(** ** Operands *)

Lemma imatch_cons : forall t0 ops ps, imatch (t0 :: ops) 1 ps = true <->
  Forall2 (fun p t => imatch1 p t = true) ps ops.
Proof.
  intros t0 ops ps. unfold imatch. cbn [skipn length]. rewrite andb_true_iff, Nat.eqb_eq. cbn [plus].
  split.
  - intros [L M]. injection L as L. revert ops L M. induction ps as [|p ps IH]; intros [|t ops] L M; try discriminate; constructor.
    + cbn [match_all] in M. apply andb_prop in M. tauto.
    + cbn [match_all] in M. apply andb_prop in M. apply IH; [injection L; auto|tauto].
  - intros F. assert (L : length ops = length ps) by (clear -F; induction F; cbn; auto).
    split; [f_equal; exact L|]. clear L. induction F; [reflexivity|]. cbn [match_all]. rewrite H. auto.
Qed.

(** A tuple of lower case names. *)
Lemma match_tuple : forall l t, map lower l = l -> imatch1 (PTuple l) t = true <-> In (lower t) l.
Proof.
  intros l t L. cbn [imatch1]. rewrite existsb_exists. split.
  - intros (x & I & E). apply str_eqb_eq in E. apply upper_eq_lower in E. rewrite E.
    replace (lower x) with x; [exact I|]. revert I L. clear. induction l as [|y l IH]; intros I L; [destruct I|].
    cbn [map] in L. injection L as L1 L2. destruct I as [-> | I]; auto.
  - intros I. exists (lower t). split; [exact I|]. apply str_eqb_eq. rewrite upper_lower. reflexivity.
Qed.
(** A punctuation mark. *)
Lemma match_mark : forall c t, (N_of_ascii c < 65 \/ 90 < N_of_ascii c)%N -> upper_chr c = c ->
  imatch1 (PStr [c]) t = true <-> t = [c].
Proof.
  intros c t H U. rewrite imatch1_chr, str_eqb_eq. cbn [upper map]. rewrite U. split; [|intros ->; cbn [upper map]; rewrite U; reflexivity].
  intros E. apply upper_nonletter1 in E; assumption.
Qed.

Lemma digits_numeral : forall t, isdigit t = true -> exists v, numeral 10 t v.
Proof.
  intros t H. assert (F : t <> [] /\ Forall (fun c => is_digit c = true) t).
  { destruct t as [|c t]; [discriminate|]. split; [discriminate|]. apply Forall_forall. apply forallb_forall. exact H. }
  clear H. destruct F as [N F]. revert N F. induction t as [|c t IH] using rev_ind; intros N F; [congruence|].
  apply Forall_app in F. destruct F as [F1 F2]. inversion F2; subst.
  assert (D : exists d, digit d c /\ d < 10).
  { exists (ord c - 48). unfold is_digit in H1. clear - H1. destruct c as [[] [] [] [] [] [] [] []]; try discriminate H1;
      (split; [split; [vm_compute; discriminate|left; reflexivity]|vm_compute; reflexivity]). }
  destruct D as (d & D & L). destruct t as [|c' t].
  - exists d. constructor; assumption.
  - destruct IH as (v & V); [discriminate|assumption|]. exists (v * 10 + d). constructor; assumption.
Qed.
Lemma digit_dec : forall d c, digit d c -> d < 10 -> is_digit c = true.
Proof.
  intros d c [P H] L.
  assert (C : d = 0 \/ d = 1 \/ d = 2 \/ d = 3 \/ d = 4 \/ d = 5 \/ d = 6 \/ d = 7 \/ d = 8 \/ d = 9) by lia.
  repeat (destruct C as [-> | C]; [destruct H as [H|H]; vm_compute in H; injection H as <-; reflexivity|]).
  subst d. destruct H as [H|H]; vm_compute in H; injection H as <-; reflexivity.
Qed.
Lemma numeral_digits : forall t v, numeral 10 t v -> isdigit t = true.
Proof.
  intros t v H. assert (G : forallb is_digit t = true /\ t <> []).
  { induction H as [c d D L|s w c d H [IH N] D L].
    - split; [|discriminate]. cbn [forallb]. rewrite andb_true_r. revert D L. apply digit_dec.
    - split; [|destruct s; discriminate]. rewrite forallb_app, IH. cbn [forallb andb]. rewrite andb_true_r. revert D L. apply digit_dec. }
  destruct G as [G N]. destruct t; [congruence|exact G].
Qed.
