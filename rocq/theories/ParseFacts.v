(** Proofs about integer literals and formulas (assembler.py:310-475, 832-858). *)
From Coq Require Import Lia ZifyBool.
From Verif Require Import Py PyFacts Utils SpecUtils UtilsFacts Tokenizer State Assembler SpecParse.
Local Open Scope Z_scope.

Ltac Zify.zify_post_hook ::= Z.div_mod_to_equations.

(** ** int() on numerals *)

Lemma digit_small : forall d c, digit d c -> 0 <= d < 16.
Proof.
  intros d c [H [E|E]]; split; auto.
  - assert (Z.to_nat d < length low_digits)%nat by (apply nth_error_Some; congruence).
    cbn in H0. lia.
  - assert (Z.to_nat d < length up_digits)%nat by (apply nth_error_Some; congruence).
    cbn in H0. lia.
Qed.

Lemma digit_cases : forall d, 0 <= d < 16 ->
  d = 0 \/ d = 1 \/ d = 2 \/ d = 3 \/ d = 4 \/ d = 5 \/ d = 6 \/ d = 7 \/ d = 8 \/
  d = 9 \/ d = 10 \/ d = 11 \/ d = 12 \/ d = 13 \/ d = 14 \/ d = 15.
Proof. intros. lia. Qed.

Lemma digit_value_spec : forall d c, digit d c -> digit_value c = Some d.
Proof.
  intros d c H. pose proof (digit_cases d (digit_small d c H)) as B. destruct H as [_ H].
  repeat (destruct B as [B|B]);
    subst d; cbn in H; destruct H as [H|H]; injection H as <-; reflexivity.
Qed.

Definition dval (c : ascii) : Z := match digit_value c with Some d => d | None => 0 end.

Lemma numeral_chars : forall base s v, numeral base s v ->
  s <> [] /\ Forall (fun c => is_base_digit base c = true) s /\
  v = fold_left (fun a c => a * base + dval c) s 0.
Proof.
  induction 1.
  - repeat split; [discriminate| |].
    + constructor; auto. unfold is_base_digit. rewrite (digit_value_spec d c) by auto. lia.
    + cbn. unfold dval. rewrite (digit_value_spec d c) by auto. lia.
  - destruct IHnumeral as (N & F & E). repeat split.
    + destruct s; discriminate.
    + apply Forall_app. split; auto. constructor; auto.
      unfold is_base_digit. rewrite (digit_value_spec d c) by auto. lia.
    + rewrite fold_left_app, <- E. cbn. unfold dval.
      rewrite (digit_value_spec d c) by auto. reflexivity.
Qed.

Lemma numeral_nonneg : forall base s v, 0 <= base -> numeral base s v -> 0 <= v.
Proof.
  intros base s v Hb H. induction H as [c d [D _] L | s v c d N IH [D _] L]; nia.
Qed.

Lemma base_digit_not_underscore : forall base c,
  is_base_digit base c = true -> Ascii.eqb c "_" = false.
Proof.
  intros. destruct (Ascii.eqb c "_") eqn:E; auto. apply Ascii.eqb_eq in E. subst.
  discriminate.
Qed.

Lemma scan_digits_all : forall base s acc,
  Forall (fun c => is_base_digit base c = true) s ->
  scan_digits base acc false s = Some (fold_left (fun a c => a * base + dval c) s acc, []).
Proof.
  induction s; intros acc F; cbn [scan_digits fold_left]; auto.
  inversion F; subst. rewrite (base_digit_not_underscore base a) by auto.
  unfold is_base_digit in H1. unfold dval at 2.
  destruct (digit_value a) eqn:E; [|discriminate]. rewrite H1. apply IHs; auto.
Qed.

Lemma digit_not_space : forall base c, is_base_digit base c = true -> is_space c = false.
Proof.
  intros base c. unfold is_base_digit, digit_value, is_space. cbn zeta.
  destruct ((48 <=? ord c) && (ord c <=? 57)) eqn:E1; [lia|].
  destruct ((97 <=? ord c) && (ord c <=? 122)) eqn:E2; [lia|].
  destruct ((65 <=? ord c) && (ord c <=? 90)) eqn:E3; [lia|]. discriminate.
Qed.

Lemma digit_not_sign : forall base c, is_base_digit base c = true ->
  Ascii.eqb c "-" = false /\ Ascii.eqb c "+" = false.
Proof.
  intros. split; destruct (Ascii.eqb c _) eqn:E; auto; apply Ascii.eqb_eq in E; subst; discriminate.
Qed.

Lemma digit_not_marker : forall base c, is_base_digit base c = true ->
  ((base =? 16) && Ascii.eqb (lower_chr c) "x") || ((base =? 8) && Ascii.eqb (lower_chr c) "o")
           || ((base =? 2) && Ascii.eqb (lower_chr c) "b") = false.
Proof.
  intros base c H.
  assert (D : forall m b, is_base_digit b m = false -> base = b -> lower_chr c = m -> False).
  { intros m b H1 -> <-. revert H H1. unfold is_base_digit.
    assert (X : digit_value (lower_chr c) = digit_value c).
    { destruct c as [[] [] [] [] [] [] [] []]; reflexivity. }
    rewrite X. congruence. }
  destruct ((base =? 16) && Ascii.eqb (lower_chr c) "x") eqn:E1.
  { apply andb_true_iff in E1 as [? E]. apply Ascii.eqb_eq in E.
    exfalso. apply (D "x"%char 16); auto; lia. }
  destruct ((base =? 8) && Ascii.eqb (lower_chr c) "o") eqn:E2.
  { apply andb_true_iff in E2 as [? E]. apply Ascii.eqb_eq in E.
    exfalso. apply (D "o"%char 8); auto; lia. }
  destruct ((base =? 2) && Ascii.eqb (lower_chr c) "b") eqn:E3; auto.
  apply andb_true_iff in E3 as [? E]. apply Ascii.eqb_eq in E.
  exfalso. apply (D "b"%char 2); auto; lia.
Qed.

Lemma skip_base_prefix_id : forall base s,
  Forall (fun c => is_base_digit base c = true) s -> skip_base_prefix base s = s.
Proof.
  intros base s F. destruct F as [|z s Hz [|x t Hx F]]; auto.
  cbn [skip_base_prefix]. rewrite digit_not_marker by auto.
  destruct (Ascii.eqb z "0"); auto.
Qed.

Lemma scan_number_numeral : forall base s v, numeral base s v ->
  scan_number base (skip_base_prefix base s) = Some v.
Proof.
  intros base s v H. apply numeral_chars in H. destruct H as (N & F & ->).
  rewrite skip_base_prefix_id by auto.
  destruct s as [|c s]; [congruence|].
  unfold scan_number. rewrite scan_digits_all by auto.
  inversion F; subst. rewrite H1. reflexivity.
Qed.

Lemma numeral_first : forall base s v, numeral base s v ->
  exists c t, s = c :: t /\ is_base_digit base c = true.
Proof.
  intros base s v H. apply numeral_chars in H. destruct H as (N & F & _).
  destruct F as [|c t]; [congruence|]. eauto.
Qed.

Lemma py_int_numeral : forall base s v, numeral base s v -> py_int base s = Some v.
Proof.
  intros base s v H. destruct (numeral_first _ _ _ H) as (c & t & -> & D).
  unfold py_int. cbn [lstrip]. rewrite (digit_not_space base c) by auto.
  destruct (digit_not_sign base c D) as [-> ->].
  apply scan_number_numeral; auto.
Qed.

Lemma py_int_neg : forall base s v, numeral base s v -> py_int base ("-"%char :: s) = Some (- v).
Proof.
  intros base s v H. unfold py_int. cbn [lstrip].
  replace (is_space "-") with false by reflexivity.
  rewrite Ascii.eqb_refl. rewrite (scan_number_numeral base s v H). reflexivity.
Qed.

(** ** Literals *)

Section Lit.
  Context (p : pcfg).

  Definition pre_tables (l : list (str * (Z * bool))) (token : str)
    (k : res (option Z * bool)) : res (option Z * bool) :=
    fold_right (fun '(x, (base, dec)) k => try_prefixes [x] base dec token k) k l.
  Definition suf_tables (l : list (str * (Z * bool))) (token : str)
    (k : res (option Z * bool)) : res (option Z * bool) :=
    fold_right (fun '(x, (base, dec)) k => try_suffixes [x] base dec token k) k l.

  Lemma try_prefixes_tables : forall l base dec token k,
    try_prefixes l base dec token k = pre_tables (map (fun x => (x, (base, dec))) l) token k.
  Proof.
    induction l; intros; cbn [try_prefixes map pre_tables fold_right]; auto.
    destruct (starts_with a token); auto.
    rewrite IHl. reflexivity.
  Qed.
  Lemma try_suffixes_tables : forall l base dec token k,
    try_suffixes l base dec token k = suf_tables (map (fun x => (x, (base, dec))) l) token k.
  Proof.
    induction l; intros; cbn [try_suffixes map suf_tables fold_right]; auto.
    destruct (ends_with a token && isdigit (slice_suffix (length a) token)); auto.
    rewrite IHl. reflexivity.
  Qed.

  Lemma parse_number_tables : forall token,
    parse_number p token =
    pre_tables (prefix_notations p) token
      (suf_tables (suffix_notations p) token
        (match py_int 10 token with Some v => Ok (Some v, true) | None => Ok (None, false) end)).
  Proof.
    intros. unfold parse_number, prefix_notations, suffix_notations.
    unfold pre_tables, suf_tables. rewrite !fold_right_app.
    rewrite !try_prefixes_tables, !try_suffixes_tables. reflexivity.
  Qed.

  Lemma pre_tables_skip : forall l token k, no_prefix l token -> pre_tables l token k = k.
  Proof.
    induction l as [|[x [base dec]] l]; intros; cbn [pre_tables fold_right]; auto.
    inversion H; subst. cbn [try_prefixes].
    destruct (starts_with x token) eqn:E.
    - apply starts_with_iff in E. exfalso. apply H2. exact E.
    - apply IHl; auto.
  Qed.
  Lemma suf_tables_skip : forall l token k, no_suffix l token -> suf_tables l token k = k.
  Proof.
    induction l as [|[x [base dec]] l]; intros; cbn [suf_tables fold_right]; auto.
    inversion H; subst. cbn [try_suffixes].
    destruct (ends_with x token) eqn:E.
    - apply ends_with_iff in E. exfalso. apply H2. exact E.
    - cbn [andb]. apply IHl; auto.
  Qed.

  Lemma pre_tables_app : forall l1 l2 token k,
    pre_tables (l1 ++ l2) token k = pre_tables l1 token (pre_tables l2 token k).
  Proof. intros. unfold pre_tables. apply fold_right_app. Qed.
  Lemma suf_tables_app : forall l1 l2 token k,
    suf_tables (l1 ++ l2) token k = suf_tables l1 token (suf_tables l2 token k).
  Proof. intros. unfold suf_tables. apply fold_right_app. Qed.

  Lemma internal_not_quote : forall s, s <> [] -> not_quote s ->
    internal_parse_integer p s = parse_number p s.
  Proof.
    intros s H N. destruct s as [|c t]; [congruence|]. cbn [internal_parse_integer].
    destruct (Ascii.eqb c squote) eqn:E; auto.
    apply Ascii.eqb_eq in E. subst. exfalso. apply (N t). reflexivity.
  Qed.

  Lemma digit_not_quote : forall base s v t, numeral base s v -> not_quote (s ++ t).
  Proof.
    intros base s v t H u E. destruct (numeral_first _ _ _ H) as (c & r & -> & D).
    cbn in E. injection E as -> _. discriminate.
  Qed.

  Lemma numeral10_isdigit : forall s v, numeral 10 s v -> isdigit s = true.
  Proof.
    intros s v H. apply numeral_chars in H. destruct H as (N & F & _).
    unfold isdigit. destruct s; [congruence|].
    apply forallb_forall. intros x Hx. rewrite Forall_forall in F. apply F in Hx.
    revert Hx. unfold is_base_digit, digit_value, is_digit, ord. cbn zeta.
    destruct ((48 <=? Z.of_N (N_of_ascii x)) && (Z.of_N (N_of_ascii x) <=? 57)) eqn:E1; [lia|].
    destruct ((97 <=? Z.of_N (N_of_ascii x)) && (Z.of_N (N_of_ascii x) <=? 122)) eqn:E2; [lia|].
    destruct ((65 <=? Z.of_N (N_of_ascii x)) && (Z.of_N (N_of_ascii x) <=? 90)) eqn:E3; [lia|].
    discriminate.
  Qed.

  Lemma literal_parse : forall s v dec, literal p s v dec ->
    internal_parse_integer p s = Ok (Some v, dec).
  Proof.
    intros s v dec H. destruct H.
    - reflexivity.
    - rewrite internal_not_quote; auto.
      2:{ apply numeral_chars in H0. destruct H0, s; [congruence|]. destruct pre; discriminate. }
      rewrite parse_number_tables, H, pre_tables_app, pre_tables_skip by auto.
      cbn [pre_tables fold_right try_prefixes].
      replace (starts_with pre (pre ++ s)) with true
        by (symmetry; apply starts_with_iff; eauto).
      rewrite skipn_app, skipn_all, Nat.sub_diag. cbn [skipn app].
      rewrite (py_int_numeral base s v) by auto. reflexivity.
    - destruct H2 as [w Hw].
      rewrite internal_not_quote.
      2:{ apply numeral_chars in H1. destruct H1, s; [congruence|]. discriminate. }
      2:{ eapply digit_not_quote; eauto. }
      rewrite parse_number_tables, pre_tables_skip, H, suf_tables_app, suf_tables_skip by auto.
      cbn [suf_tables fold_right try_suffixes].
      replace (ends_with suf (s ++ suf)) with true
        by (symmetry; apply ends_with_iff; eauto).
      replace (slice_suffix (length suf) (s ++ suf)) with s.
      2:{ unfold slice_suffix. destruct suf; [congruence|]. cbn [length].
          symmetry. apply (drop_last_app s (a :: suf)). }
      rewrite (numeral10_isdigit s w) by auto. cbn [andb].
      rewrite (py_int_numeral base s v) by auto. reflexivity.
    - rewrite internal_not_quote.
      2:{ apply numeral_chars in H. destruct H; auto. }
      2:{ rewrite <- (app_nil_r s). eapply digit_not_quote; eauto. }
      rewrite parse_number_tables, pre_tables_skip, suf_tables_skip by auto.
      rewrite (py_int_numeral 10 s v) by auto. reflexivity.
    - rewrite internal_not_quote; [|discriminate|intros t E; discriminate].
      rewrite parse_number_tables, pre_tables_skip, suf_tables_skip by auto.
      rewrite (py_int_neg 10 s v) by auto. reflexivity.
  Qed.

  Lemma literal_nonempty : forall s v dec, literal p s v dec -> s <> [].
  Proof.
    intros s v dec H E. subst. apply literal_parse in H. discriminate.
  Qed.
End Lit.

(** ** Splitting of formulas *)

Lemma is_op_In : forall c, is_op c = true <-> In c op_chars.
Proof. intros. apply chr_in_In. Qed.
Lemma is_op_not : forall c, is_op c = false <-> ~ In c op_chars.
Proof. intros. apply chr_in_not. Qed.

Lemma is_ltgt_false : forall c, is_ltgt c = false <-> c <> "<"%char /\ c <> ">"%char.
Proof.
  intros. unfold is_ltgt. rewrite chr_in_not. cbn [In].
  split; [intros H; split; intro; subst; apply H; auto|].
  intros [H1 H2] [H|[H|[]]]; congruence.
Qed.
Lemma is_ltgt_true : forall c, is_ltgt c = true <-> c = "<"%char \/ c = ">"%char.
Proof.
  intros. unfold is_ltgt. rewrite chr_in_In. cbn [In]. intuition congruence.
Qed.

Lemma pre_formula_sel : forall sel s, selector sel -> no_select s ->
  pre_formula_of (sel ++ s) = sel.
Proof.
  induction sel; intros s F N; cbn [app pre_formula_of].
  - destruct s as [|c t]; auto. cbn [pre_formula_of].
    destruct (N c t eq_refl) as [N1 N2].
    replace (is_ltgt c) with false by (symmetry; apply is_ltgt_false; auto). reflexivity.
  - inversion F; subst.
    replace (is_ltgt a) with true by (symmetry; apply is_ltgt_true; auto).
    f_equal. apply IHsel; auto.
Qed.

Lemma post_loop_true : forall v s, post_formula_loop true v s = s.
Proof. induction s; cbn [post_formula_loop]; congruence. Qed.

Lemma post_loop_no_ops : forall s v, no_ops s -> post_formula_loop false v s = [].
Proof.
  induction s; intros v F; cbn [post_formula_loop]; auto.
  inversion F; subst. apply is_op_not in H1. rewrite H1. apply IHs; auto.
Qed.

Lemma post_loop_chain : forall s op t v, no_ops s -> In op op_chars -> 0 <= v ->
  (s <> [] \/ 1 <= v) -> post_formula_loop false v (s ++ op :: t) = op :: t.
Proof.
  induction s; intros op t v F O V N; cbn [app post_formula_loop].
  - apply is_op_In in O. rewrite O. replace (v <? 1) with false by (destruct N; [congruence|lia]).
    rewrite post_loop_true. reflexivity.
  - inversion F; subst. apply is_op_not in H1. rewrite H1. apply IHs; auto; lia.
Qed.

Lemma post_loop_plain : forall s, no_ops (tl s) -> post_formula_loop false 0 s = [].
Proof.
  intros [|c t] F; auto. cbn [tl] in F. cbn [post_formula_loop].
  destruct (is_op c); [reflexivity|]. apply post_loop_no_ops; auto.
Qed.

Lemma gmf_plain : forall sel s, selector sel -> plain s ->
  get_math_formula (sel ++ s) = (s, sel, []).
Proof.
  intros sel s F [N O]. unfold get_math_formula.
  rewrite pre_formula_sel by auto. rewrite skipn_app, skipn_all, Nat.sub_diag.
  cbn [skipn app]. rewrite post_loop_plain by auto. reflexivity.
Qed.

Lemma no_ops_tl : forall s, no_ops s -> no_ops (tl s).
Proof. intros s H. destruct H; [constructor|auto]. Qed.

Lemma chain_ok_inv : forall op arg ch, chain_ok ((op, arg) :: ch) ->
  In op op_chars /\ no_ops arg /\ chain_ok ch.
Proof. intros op arg ch H. inversion H; subst. destruct H2. auto. Qed.

Lemma gmf_chain : forall sel s ch, selector sel -> no_select s -> s <> [] -> no_ops s ->
  chain_ok ch -> get_math_formula (sel ++ s ++ show_chain ch) = (s, sel, show_chain ch).
Proof.
  intros sel s ch F N NE O C. destruct ch as [|[op arg] ch].
  - cbn [show_chain flat_map]. rewrite app_nil_r. apply gmf_plain; auto.
    split; auto. apply no_ops_tl; auto.
  - apply chain_ok_inv in C. destruct C as (C1 & C2 & C3).
    unfold get_math_formula. rewrite pre_formula_sel; auto.
    2:{ intros c t E. destruct s as [|x s]; [congruence|]. cbn in E.
        injection E as -> _. apply (N c s eq_refl). }
    rewrite skipn_app, skipn_all, Nat.sub_diag. cbn [skipn app].
    change (show_chain ((op, arg) :: ch)) with (op :: arg ++ show_chain ch).
    rewrite post_loop_chain; auto; [|lia].
    cbv iota beta zeta. f_equal. f_equal.
    set (r := op :: arg ++ show_chain ch).
    rewrite !app_length.
    replace (length sel + (length s + length r) - length r - length sel)%nat with (length s) by lia.
    rewrite firstn_app, Nat.sub_diag, firstn_all. cbn [firstn]. apply app_nil_r.
Qed.

Lemma split_ops_arg : forall arg cmd acc t, no_ops arg ->
  split_ops cmd acc (arg ++ t) = split_ops cmd (acc ++ arg) t.
Proof.
  induction arg; intros cmd acc t F; cbn [app].
  - rewrite app_nil_r. reflexivity.
  - inversion F; subst. apply is_op_not in H1. cbn [split_ops]. rewrite H1.
    rewrite IHarg by auto. rewrite <- app_assoc. reflexivity.
Qed.

Lemma split_ops_chain : forall ch cmd acc, chain_ok ch ->
  split_ops (Some cmd) acc (show_chain ch) = (cmd, acc) :: ch.
Proof.
  induction ch as [|[op arg] ch]; intros cmd acc C; auto.
  apply chain_ok_inv in C. destruct C as (C1 & C2 & C3).
  change (show_chain ((op, arg) :: ch)) with (op :: arg ++ show_chain ch).
  cbn [split_ops]. apply is_op_In in C1. rewrite C1.
  rewrite split_ops_arg by auto. cbn [app]. rewrite IHch; auto.
Qed.

Lemma split_ops_show : forall ch, chain_ok ch -> split_ops None [] (show_chain ch) = ch.
Proof.
  intros [|[op arg] ch] C; auto. apply chain_ok_inv in C. destruct C as (C1 & C2 & C3).
  change (show_chain ((op, arg) :: ch)) with (op :: arg ++ show_chain ch).
  cbn [split_ops]. apply is_op_In in C1. rewrite C1.
  rewrite split_ops_arg by auto. cbn [app]. apply split_ops_chain; auto.
Qed.

(** ** Byte selection *)

Lemma lor_disjoint : forall a b n, 0 <= n -> 0 <= a < 2 ^ n ->
  Z.lor a (Z.shiftl b n) = a + b * 2 ^ n.
Proof.
  intros a b n Hn Ha. rewrite <- Z.shiftl_mul_pow2 by auto.
  assert (Z.land a (Z.shiftl b n) = 0).
  { apply Z.bits_inj'. intros i Hi. rewrite Z.land_spec, Z.bits_0.
    destruct (Z_lt_dec i n).
    - rewrite Z.shiftl_spec_low by auto. apply andb_false_r.
    - replace a with (a mod 2 ^ n) by (apply Z.mod_small; lia).
      rewrite Z.mod_pow2_bits_high by lia. reflexivity. }
  rewrite Z.add_nocarry_lxor by auto. symmetry. apply Z.lxor_lor; auto.
Qed.

Lemma pow256_pow2 : forall n, 0 <= n -> 256 ^ n = 2 ^ (8 * n).
Proof. intros. rewrite Z.pow_mul_r by lia. reflexivity. Qed.

Lemma pre_loop_spec : forall sel v sh low g has, selector sel ->
  0 <= low -> 0 <= g -> 0 <= sh < 256 ^ low ->
  pre_loop sel (Z.shiftr v (8 * g)) sh low has =
  if has || existsb (Ascii.eqb "<") sel then sh + select_low sel low g v
  else Z.shiftr v (8 * (g + zlen sel)).
Proof.
  induction sel as [|c sel]; intros v sh low g has F Hl Hg Hs.
  - cbn [pre_loop existsb select_low]. rewrite orb_false_r, Z.add_0_r.
    destruct has; auto. rewrite Z.add_0_r. reflexivity.
  - inversion F as [|? ? [-> | ->] F']; subst; cbn [pre_loop existsb select_low].
    + change (Ascii.eqb "<" ">") with false. change (Ascii.eqb "<" "<") with true.
      cbv iota. cbn [orb]. rewrite orb_true_r.
      rewrite Z.shiftr_shiftr by lia.
      assert (Hb : forall x, Z.land x 255 = x mod 256)
        by (intros; apply (land_ones_mod x 8); lia).
      rewrite Hb.
      replace (Z.shiftr v (8 * g + 8 * low)) with (v / 256 ^ (g + low)).
      2:{ rewrite Z.shiftr_div_pow2, pow256_pow2 by lia. f_equal. f_equal. ring. }
      set (b := (v / 256 ^ (g + low)) mod 256).
      assert (0 <= b < 256) by (apply Z.mod_pos_bound; lia).
      rewrite (pow256_pow2 low) in * by lia.
      rewrite lor_disjoint by lia.
      rewrite IHsel; auto; try lia.
      2:{ rewrite pow256_pow2 by lia. replace (8 * (low + 1)) with (8 * low + 8) by ring.
          rewrite Z.pow_add_r by lia. change (2 ^ 8) with 256. nia. }
      cbn [orb]. lia.
    + change (Ascii.eqb ">" ">") with true. change (Ascii.eqb "<" ">") with false.
      cbv iota. cbn [orb].
      rewrite Z.shiftr_shiftr by lia. replace (8 * g + 8) with (8 * (g + 1)) by ring.
      rewrite IHsel; auto; try lia.
      rewrite zlen_cons. replace (g + 1 + zlen sel) with (g + (1 + zlen sel)) by ring. reflexivity.
Qed.

Lemma apply_pre_select : forall sel v, selector sel -> apply_pre sel v = select sel v.
Proof.
  intros sel v F. unfold apply_pre, select.
  rewrite <- (Z.shiftr_0_r v) at 1. change 0 with (8 * 0) at 1.
  rewrite pre_loop_spec; auto; try lia.
  cbn [orb]. destruct (existsb _ sel); [apply Z.add_0_l|].
  rewrite Z.add_0_l. rewrite Z.shiftr_div_pow2 by (unfold zlen; lia).
  rewrite pow256_pow2 by lia. unfold zlen. reflexivity.
Qed.

(** ** Range checks: C05 *)

Lemma check_integer_accepts : forall v dec n signed w, 1 <= n ->
  check_integer v dec n signed = Ok w <-> accepts n signed dec v w.
Proof.
  intros v dec n signed w Hn. unfold check_integer, accepts.
  pose proof (pow2_half n Hn) as Hh. pose proof (pow2_pos (n - 1) ltac:(lia)) as Hp.
  destruct dec; cbn [negb andb].
  - destruct signed; cbn [andb].
    + destruct (in_bit_range_decimal v n true) eqn:E; cbn [negb].
      * apply in_bit_range_decimal_iff in E; auto. split; [|intros [_ ->]; reflexivity].
        intros H. injection H as <-. auto.
      * split; [discriminate|]. intros [H _].
        apply (in_bit_range_decimal_iff v n true Hn) in H. congruence.
    + destruct (v <? 0) eqn:E1; cbn [andb].
      * destruct (v + 2 ^ n <? 2 ^ n / 2) eqn:E2; cbn [rbind].
        -- split; [discriminate|]. lia.
        -- replace (in_bit_range (v + 2 ^ n) n) with true
             by (symmetry; apply in_bit_range_iff; lia). cbn [negb].
           assert (v mod 2 ^ n = v + 2 ^ n) by (symmetry; apply Z.mod_unique with (-1); lia).
           rewrite H. split; [intros X; injection X as <-; lia|]. intros [_ ->]. reflexivity.
      * cbn [rbind]. destruct (in_bit_range v n) eqn:E2; cbn [negb].
        -- apply in_bit_range_iff in E2; [|lia]. rewrite Z.mod_small by auto.
           split; [intros X; injection X as <-; lia|]. intros [_ ->]. reflexivity.
        -- apply in_bit_range_false in E2; [|lia]. split; [discriminate|]. lia.
  - destruct (v <? 0) eqn:E1; [split; [discriminate|lia]|]. cbn [rbind].
    destruct (in_bit_range v n) eqn:E2; cbn [negb].
    + apply in_bit_range_iff in E2; [|lia].
      split; [intros X; injection X as <-; lia|]. intros [_ ->]. reflexivity.
    + apply in_bit_range_false in E2; [|lia]. split; [discriminate|]. lia.
Qed.

Lemma check_integer_error : forall v dec n signed e, 1 <= n ->
  check_integer v dec n signed = Err e ->
  (dec = false /\ v < 0 /\ e = AExc NegativeSignNotAllowed) \/
  (exists x, e = AExc (NotInBitRange x n None)).
Proof.
  intros v dec n signed e Hn. unfold check_integer.
  destruct dec; cbn [negb andb].
  - destruct signed; cbn [andb].
    + destruct (in_bit_range_decimal v n true); cbn [negb]; intros H; [discriminate|].
      injection H as <-. eauto.
    + destruct (v <? 0); cbn [andb].
      * destruct (v + 2 ^ n <? 2 ^ n / 2); cbn [rbind].
        -- intros H. injection H as <-. eauto.
        -- destruct (in_bit_range (v + 2 ^ n) n); cbn [negb]; intros H; [discriminate|].
           injection H as <-. eauto.
      * cbn [rbind]. destruct (in_bit_range v n); cbn [negb]; intros H; [discriminate|].
        injection H as <-. eauto.
  - destruct (v <? 0) eqn:E.
    + intros H. injection H as <-. left. repeat split. lia.
    + cbn [rbind]. destruct (in_bit_range v n); cbn [negb]; intros H; [discriminate|].
      injection H as <-. eauto.
Qed.

(** ** C07 *)

Lemma amf_no_post : forall p lbls fuel sel v,
  apply_math_formula p lbls fuel sel [] v = Ok (apply_pre sel v).
Proof. intros. destruct fuel; reflexivity. Qed.

Definition eval_arg (p : pcfg) (lbls : list (str * label)) (f : nat) (arg : str) : res Z :=
  let? v := parse_integer_with p (apply_math_formula p lbls f) arg 64 false in
  match v with
  | Some a => Ok a
  | None =>
      let? l := label_by_name_with lbls (apply_math_formula p lbls f) arg 0 in
      match l with Some a => Ok a | None => Err (AExc (UnknownLabel arg)) end
  end.

Lemma amf_unfold : forall p lbls f pre post v,
  apply_math_formula p lbls (S f) pre post v =
  ops_loop (eval_arg p lbls f) (split_ops None [] post) (apply_pre pre v).
Proof. reflexivity. Qed.

Lemma piw_sel : forall p lbls f sel s n signed, selector sel -> plain s ->
  parse_integer_with p (apply_math_formula p lbls f) (sel ++ s) n signed =
  let? vd := internal_parse_integer p s in
  match vd with
  | (None, _) => Ok None
  | (Some value, dec) =>
      let? w := check_integer (select sel value) dec n signed in Ok (Some w)
  end.
Proof.
  intros. unfold parse_integer_with. rewrite gmf_plain by auto.
  destruct (internal_parse_integer p s) as [[[v|] dec]|]; cbn [rbind]; auto.
  rewrite amf_no_post. cbn [rbind]. rewrite apply_pre_select by auto. reflexivity.
Qed.

Lemma lbn_sel : forall p lbls f sel s start, selector sel -> plain s ->
  label_by_name_with lbls (apply_math_formula p lbls f) (sel ++ s) start =
  match dget str_eqb lbls s with
  | None => Ok None
  | Some l => Ok (Some (select sel (label_address l - start)))
  end.
Proof.
  intros. unfold label_by_name_with. rewrite gmf_plain by auto.
  destruct (dget str_eqb lbls s); auto. rewrite amf_no_post. cbn [rbind].
  rewrite apply_pre_select by auto. reflexivity.
Qed.

Lemma no_ops_plain : forall s, no_select s -> no_ops s -> plain s.
Proof. intros. split; auto. apply no_ops_tl; auto. Qed.

Lemma parse_none_internal : forall p lbls s, plain s ->
  parse_integer p lbls s 64 false = Ok None <->
  exists d, internal_parse_integer p s = Ok (None, d).
Proof.
  intros p lbls s P. unfold parse_integer.
  rewrite (piw_sel p lbls math_fuel [] s) by (auto; constructor).
  destruct (internal_parse_integer p s) as [[[v|] dec]|]; cbn [rbind].
  - split.
    + intros H. destruct (check_integer _ _ _ _); discriminate.
    + intros [d H]. discriminate.
  - split; eauto.
  - split; [discriminate|]. intros [d H]. discriminate.
Qed.

Lemma eval_arg_denotes : forall p lbls f arg a, arg <> [] -> arg_denotes p lbls arg a ->
  eval_arg p lbls f arg = Ok a.
Proof.
  intros p lbls f arg a NE H. destruct H; [congruence| |].
  - unfold eval_arg. rewrite piw_sel by (auto using no_ops_plain).
    rewrite (literal_parse p s v dec) by auto. cbn [rbind].
    assert (check_integer (select sel v) dec 64 false = Ok (select sel v)) as ->.
    { apply check_integer_accepts; [lia|]. unfold accepts. destruct dec.
      - rewrite Z.mod_small by auto. lia.
      - auto. }
    reflexivity.
  - unfold eval_arg. rewrite piw_sel by (auto using no_ops_plain).
    apply parse_none_internal in H2; [|apply no_ops_plain; auto].
    destruct H2 as [d ->]. cbn [rbind].
    rewrite lbn_sel by (auto using no_ops_plain).
    destruct H3 as (l & -> & ->). cbn [rbind]. unfold label_address.
    rewrite Z.sub_0_r. reflexivity.
Qed.

Lemma op_result_apply : forall op v a r, op_result op v a r -> apply_command op v a = Ok r.
Proof.
  intros op v a r H. destruct H; try reflexivity.
  unfold apply_command. cbv [Ascii.eqb Bool.eqb]. cbv iota.
  replace (a =? 0) with false by lia. reflexivity.
Qed.

Lemma ops_loop_chain : forall p lbls f ch v w, chain_result p lbls ch v w ->
  ops_loop (eval_arg p lbls f) ch v = Ok w.
Proof.
  induction 1; cbn [ops_loop]; auto.
  assert (E : match arg with [] => Ok 1 | _ => eval_arg p lbls f arg end = Ok a).
  { destruct arg.
    - inversion H; subst; auto.
      + destruct sel; [|discriminate]. cbn in *. subst. apply literal_nonempty in H6. congruence.
      + destruct sel; [|discriminate]. cbn in *. subst. discriminate.
    - apply eval_arg_denotes; auto. discriminate. }
  rewrite E. cbn [rbind]. rewrite (op_result_apply _ _ _ _ H0). cbn [rbind]. auto.
Qed.

Lemma ops_loop_app : forall g c1 c2 v,
  ops_loop g (c1 ++ c2) v = let? w := ops_loop g c1 v in ops_loop g c2 w.
Proof.
  induction c1 as [|[op arg] c1]; intros; cbn [app ops_loop rbind]; auto.
  destruct (match arg with [] => Ok 1 | _ => g arg end); cbn [rbind]; auto.
  destruct (apply_command op v a); cbn [rbind]; auto.
Qed.

(** An unknown name: neither a number nor a label. *)
Lemma ops_loop_unknown : forall p lbls f c1 op sel name c2 v w,
  chain_result p lbls c1 v w -> selector sel -> no_select name -> no_ops name -> name <> [] ->
  parse_integer p lbls name 64 false = Ok None -> dget str_eqb lbls name = None ->
  ops_loop (eval_arg p lbls f) (c1 ++ (op, sel ++ name) :: c2) v
    = Err (AExc (UnknownLabel (sel ++ name))).
Proof.
  intros. rewrite ops_loop_app, (ops_loop_chain _ _ _ _ _ _ H). cbn [rbind ops_loop].
  destruct (sel ++ name) eqn:E.
  { destruct sel, name; cbn in E; congruence. }
  rewrite <- E. unfold eval_arg. rewrite piw_sel by (auto using no_ops_plain).
  apply parse_none_internal in H4; [|apply no_ops_plain; auto].
  destruct H4 as [d ->]. cbn [rbind]. rewrite lbn_sel by (auto using no_ops_plain).
  rewrite H5. reflexivity.
Qed.

Lemma math_fuel_S : math_fuel = S 7.
Proof. reflexivity. Qed.

Lemma parse_formula : forall p lbls sel s v dec ch w n signed,
  selector sel -> no_select s -> no_ops s -> literal p s v dec -> chain_ok ch ->
  chain_result p lbls ch (select sel v) w ->
  parse_integer p lbls (sel ++ s ++ show_chain ch) n signed =
  let? r := check_integer w dec n signed in Ok (Some r).
Proof.
  intros p lbls sel s v dec ch w n signed F N O L C R. unfold parse_integer, parse_integer_with.
  rewrite gmf_chain by (auto; eapply literal_nonempty; eauto).
  rewrite (literal_parse p s v dec) by auto. cbn [rbind].
  rewrite math_fuel_S, amf_unfold, split_ops_show by auto.
  rewrite apply_pre_select by auto. rewrite (ops_loop_chain _ _ _ _ _ _ R). reflexivity.
Qed.

Lemma parse_plain : forall p lbls s v dec n signed,
  plain s -> literal p s v dec ->
  parse_integer p lbls s n signed = let? r := check_integer v dec n signed in Ok (Some r).
Proof.
  intros p lbls s v dec n signed P L. unfold parse_integer.
  rewrite (piw_sel p lbls math_fuel [] s) by (auto; constructor).
  rewrite (literal_parse p s v dec) by auto. cbn [rbind].
  unfold select. cbn [existsb length]. change (Z.of_nat 0) with 0.
  rewrite Z.pow_0_r, Z.div_1_r. reflexivity.
Qed.

Lemma label_formula : forall p lbls sel s l start ch w,
  selector sel -> no_select s -> no_ops s -> s <> [] -> chain_ok ch ->
  dget str_eqb lbls s = Some l ->
  chain_result p lbls ch (select sel (lb_org l + lb_base l - start)) w ->
  label_relative p lbls (sel ++ s ++ show_chain ch) start = Ok (Some w).
Proof.
  intros p lbls sel s l start ch w F N O NE C L R. unfold label_relative, label_by_name_with.
  rewrite gmf_chain by auto. rewrite L.
  rewrite math_fuel_S, amf_unfold, split_ops_show by auto.
  rewrite apply_pre_select by auto. unfold label_address.
  rewrite (ops_loop_chain _ _ _ _ _ _ R). reflexivity.
Qed.

Lemma label_absolute_relative : forall p lbls name,
  label_absolute p lbls name = label_relative p lbls name 0.
Proof. reflexivity. Qed.

(** ** C08 *)

Lemma split_ops_no_ops : forall s cmd acc, no_ops acc ->
  Forall (fun '(_, arg) => no_ops arg) (split_ops cmd acc s).
Proof.
  induction s; intros cmd acc F; cbn [split_ops].
  - destruct cmd; constructor; auto.
  - destruct (is_op a) eqn:E.
    + destruct cmd; [constructor; auto|]; apply IHs; constructor.
    + apply IHs. apply Forall_app. split; auto. constructor; auto. apply is_op_not; auto.
Qed.

Lemma pre_formula_rest : forall s, exists r, s = pre_formula_of s ++ r /\ no_select r /\
  selector (pre_formula_of s).
Proof.
  induction s; cbn [pre_formula_of].
  - exists []. repeat split; auto; try discriminate. constructor.
  - destruct (is_ltgt a) eqn:E.
    + destruct IHs as (r & E1 & E2 & E3). exists r. cbn. repeat split; try (rewrite <- E1; auto).
      * apply (E2 c t H).
      * apply (E2 c t H).
      * constructor; auto. apply is_ltgt_true; auto.
    + exists (a :: s). apply is_ltgt_false in E. repeat split.
      * injection H as -> _. tauto.
      * injection H as -> _. tauto.
      * constructor.
Qed.

Lemma eval_arg_fuel : forall p lbls f g arg, no_ops arg ->
  eval_arg p lbls f arg = eval_arg p lbls g arg.
Proof.
  intros p lbls f g arg O. destruct (pre_formula_rest arg) as (r & E & N & F).
  assert (no_ops r) by (unfold no_ops in *; rewrite E in O; apply Forall_app in O; tauto).
  rewrite E. unfold eval_arg. rewrite !piw_sel, !lbn_sel by (auto using no_ops_plain). reflexivity.
Qed.

Lemma ops_loop_ext : forall g h ops v,
  Forall (fun '(_, arg) => g arg = h arg) ops -> ops_loop g ops v = ops_loop h ops v.
Proof.
  induction ops as [|[op arg] ops]; intros v F; cbn [ops_loop]; auto.
  inversion F; subst. rewrite H1.
  destruct (match arg with [] => Ok 1 | _ => h arg end); cbn [rbind]; auto.
  destruct (apply_command op v a); cbn [rbind]; auto.
Qed.

Lemma amf_fuel : forall p lbls f pre post v,
  apply_math_formula p lbls (S f) pre post v = apply_math_formula p lbls 1 pre post v.
Proof.
  intros. rewrite !amf_unfold. apply ops_loop_ext.
  pose proof (split_ops_no_ops post None [] (Forall_nil _)) as H.
  eapply Forall_impl; [|exact H]. intros [op arg] O. apply eval_arg_fuel; auto.
Qed.

Lemma amf_ge1 : forall p lbls f pre post v, (1 <= f)%nat ->
  apply_math_formula p lbls f pre post v = apply_math_formula p lbls math_fuel pre post v.
Proof.
  intros p lbls [|f] pre post v H; [lia|].
  rewrite (amf_fuel p lbls f). rewrite math_fuel_S. symmetry. apply amf_fuel.
Qed.

Lemma parse_fuel : forall p lbls f token n signed, (1 <= f)%nat ->
  parse_integer_with p (apply_math_formula p lbls f) token n signed
  = parse_integer p lbls token n signed.
Proof.
  intros. unfold parse_integer, parse_integer_with.
  destruct (get_math_formula token) as [[t pre] post].
  destruct (internal_parse_integer p t) as [[[v|] dec]|]; cbn [rbind]; auto.
  rewrite amf_ge1 by auto. reflexivity.
Qed.

Lemma label_fuel : forall p lbls f token start, (1 <= f)%nat ->
  label_by_name_with lbls (apply_math_formula p lbls f) token start
  = label_relative p lbls token start.
Proof.
  intros. unfold label_relative, label_by_name_with.
  destruct (get_math_formula token) as [[t pre] post].
  destruct (dget str_eqb lbls t); auto. rewrite amf_ge1 by auto. reflexivity.
Qed.

(** RecursionError is never the result. *)
Definition no_rec {A} (r : res A) : Prop := r <> Err (PExc RecursionError).

Lemma no_rec_bind : forall {A B} (m : res A) (k : A -> res B),
  no_rec m -> (forall a, m = Ok a -> no_rec (k a)) -> no_rec (rbind m k).
Proof.
  intros A B [a|e] k H K; cbn [rbind]; auto. unfold no_rec in *. congruence.
Qed.

Lemma no_rec_internal : forall p s, no_rec (internal_parse_integer p s).
Proof.
  intros p s.
  assert (HP : forall l base dec k, no_rec k -> no_rec (try_prefixes l base dec s k)).
  { induction l; intros; cbn [try_prefixes]; auto.
    destruct (starts_with a s); auto. destruct (py_int base _); discriminate. }
  assert (HS : forall l base dec k, no_rec k -> no_rec (try_suffixes l base dec s k)).
  { induction l; intros; cbn [try_suffixes]; auto.
    destruct (_ && _); auto. destruct (py_int base _); discriminate. }
  assert (HN : no_rec (parse_number p s)).
  { unfold parse_number. repeat (apply HP || apply HS). destruct (py_int 10 s); discriminate. }
  unfold internal_parse_integer. destruct s as [|c t]; [discriminate|].
  destruct (Ascii.eqb c squote); auto.
  destruct (nth_error (c :: t) 2); [|discriminate].
  destruct (Ascii.eqb a squote); auto. destruct (nth_error (c :: t) 1); discriminate.
Qed.

Lemma no_rec_check : forall v dec n signed, no_rec (check_integer v dec n signed).
Proof.
  intros. unfold check_integer.
  destruct (negb dec && (v <? 0)); [discriminate|].
  destruct (dec && signed). { destruct (negb _); discriminate. }
  apply no_rec_bind.
  - destruct (dec && (v <? 0)); [|discriminate]. cbn zeta.
    destruct (_ <? _); discriminate.
  - intros. destruct (negb _); discriminate.
Qed.

Lemma no_rec_ops : forall g ops v, (forall arg, In arg (map snd ops) -> no_rec (g arg)) ->
  no_rec (ops_loop g ops v).
Proof.
  induction ops as [|[op arg] ops]; intros v H; cbn [ops_loop]; [discriminate|].
  apply no_rec_bind.
  - destruct arg; [discriminate|]. apply H. left. reflexivity.
  - intros. apply no_rec_bind.
    + unfold apply_command.
      repeat match goal with |- no_rec (if ?b then _ else _) => destruct b end; discriminate.
    + intros. apply IHops. intros. apply H. right. auto.
Qed.

Lemma no_rec_amf : forall p lbls pre post v,
  no_rec (apply_math_formula p lbls math_fuel pre post v).
Proof.
  intros. rewrite math_fuel_S, amf_unfold. apply no_rec_ops. intros arg H.
  pose proof (split_ops_no_ops post None [] (Forall_nil _)) as F.
  assert (O : no_ops arg).
  { apply in_map_iff in H. destruct H as ([c a] & <- & I). rewrite Forall_forall in F.
    apply F in I. auto. }
  clear H F. destruct (pre_formula_rest arg) as (r & E & N & F).
  assert (no_ops r) by (unfold no_ops in *; rewrite E in O; apply Forall_app in O; tauto).
  rewrite E. unfold eval_arg. rewrite !piw_sel, !lbn_sel by (auto using no_ops_plain).
  apply no_rec_bind.
  - apply no_rec_bind; [apply no_rec_internal|]. intros [[a|] d] _; [|discriminate].
    apply no_rec_bind; [apply no_rec_check|]. discriminate.
  - intros [a|] _; [discriminate|].
    destruct (dget str_eqb lbls r); discriminate.
Qed.

Lemma no_rec_parse : forall p lbls token n signed, no_rec (parse_integer p lbls token n signed).
Proof.
  intros. unfold parse_integer, parse_integer_with.
  destruct (get_math_formula token) as [[t pre] post].
  apply no_rec_bind; [apply no_rec_internal|]. intros [[v|] d] _; [|discriminate].
  apply no_rec_bind; [apply no_rec_amf|]. intros.
  apply no_rec_bind; [apply no_rec_check|]. discriminate.
Qed.

Lemma no_rec_label : forall p lbls token start, no_rec (label_relative p lbls token start).
Proof.
  intros. unfold label_relative, label_by_name_with.
  destruct (get_math_formula token) as [[t pre] post].
  destruct (dget str_eqb lbls t); [|discriminate].
  apply no_rec_bind; [apply no_rec_amf|]. discriminate.
Qed.

Lemma amf_addresses : forall p l1 l2, same_addresses l1 l2 -> forall f pre post v,
  apply_math_formula p l1 f pre post v = apply_math_formula p l2 f pre post v.
Proof.
  intros p l1 l2 S. induction f; intros.
  - reflexivity.
  - rewrite !amf_unfold. apply ops_loop_ext. apply Forall_forall. intros [op arg] _.
    unfold eval_arg, parse_integer_with, label_by_name_with.
    destruct (get_math_formula arg) as [[t pre'] post'].
    destruct (internal_parse_integer p t) as [[[a|] d]|]; cbn [rbind]; auto.
    + rewrite IHf. destruct (apply_math_formula p l2 f pre' post' a); cbn [rbind]; auto.
      destruct (check_integer _ _ _ _); reflexivity.
    + specialize (S t). destruct (dget str_eqb l1 t), (dget str_eqb l2 t); try contradiction; auto.
      unfold label_address. rewrite S, IHf. reflexivity.
Qed.

Lemma parse_addresses : forall p l1 l2 token n signed, same_addresses l1 l2 ->
  parse_integer p l1 token n signed = parse_integer p l2 token n signed.
Proof.
  intros. unfold parse_integer, parse_integer_with.
  destruct (get_math_formula token) as [[t pre] post].
  destruct (internal_parse_integer p t) as [[[v|] dec]|]; cbn [rbind]; [|reflexivity..].
  rewrite (amf_addresses p l1 l2) by auto. reflexivity.
Qed.

Lemma label_addresses : forall p l1 l2 token start, same_addresses l1 l2 ->
  label_relative p l1 token start = label_relative p l2 token start.
Proof.
  intros. unfold label_relative, label_by_name_with.
  destruct (get_math_formula token) as [[t pre] post].
  pose proof (H t).
  destruct (dget str_eqb l1 t), (dget str_eqb l2 t); try contradiction; [|reflexivity].
  unfold label_address. rewrite H0, (amf_addresses p l1 l2) by auto. reflexivity.
Qed.

(** ** C05 *)

Lemma pre_tables_result : forall l s k v dec, pre_tables l s k = Ok (Some v, dec) ->
  (exists x base, In (x, (base, dec)) l /\ is_prefix x s) \/ k = Ok (Some v, dec).
Proof.
  induction l as [|[x [base dec']] l]; intros s k v dec H; auto.
  cbn [pre_tables fold_right try_prefixes] in H.
  destruct (starts_with x s) eqn:E.
  - destruct (py_int base _); [|discriminate]. injection H as _ <-.
    left. exists x, base. split; [left; auto|]. apply starts_with_iff; auto.
  - destruct (IHl s k v dec H) as [(y & b & I & P)|?]; auto.
    left. exists y, b. split; [right; auto|auto].
Qed.

Lemma suf_tables_result : forall l s k v dec, suf_tables l s k = Ok (Some v, dec) ->
  (exists x base, In (x, (base, dec)) l /\ is_suffix x s) \/ k = Ok (Some v, dec).
Proof.
  induction l as [|[x [base dec']] l]; intros s k v dec H; auto.
  cbn [suf_tables fold_right try_suffixes] in H.
  destruct (ends_with x s && _) eqn:E.
  - apply andb_true_iff in E as [E _].
    destruct (py_int base _); [|discriminate]. injection H as _ <-.
    left. exists x, base. split; [left; auto|]. apply ends_with_iff; auto.
  - destruct (IHl s k v dec H) as [(y & b & I & P)|?]; auto.
    left. exists y, b. split; [right; auto|auto].
Qed.

Lemma internal_nondecimal : forall p s v,
  internal_parse_integer p s = Ok (Some v, false) -> nondecimal p s.
Proof.
  intros p s v H.
  assert (HN : parse_number p s = Ok (Some v, false) -> nondecimal p s).
  { rewrite parse_number_tables. intros E. apply pre_tables_result in E.
    destruct E as [(x & b & I & P)|E].
    - left. exists x. split; auto. unfold prefix_notations in I.
      rewrite !in_app_iff, !in_map_iff in *.
      destruct I as [(y & E & I)|[(y & E & I)|[(y & E & I)|(y & E & I)]]];
        inversion E; subst; auto.
    - apply suf_tables_result in E. destruct E as [(x & b & I & P)|E].
      + right. left. exists x. split; auto. unfold suffix_notations in I.
        rewrite !in_app_iff, !in_map_iff in *.
        destruct I as [(y & E & I)|[(y & E & I)|[(y & E & I)|(y & E & I)]]];
          inversion E; subst; auto.
      + destruct (py_int 10 s); discriminate. }
  unfold internal_parse_integer in H. destruct s as [|c t]; [discriminate|].
  destruct (Ascii.eqb c squote) eqn:E; auto. apply Ascii.eqb_eq in E. subst c.
  destruct t as [|c1 [|c2 t]]; try discriminate. cbn [nth_error] in H.
  destruct (Ascii.eqb c2 squote) eqn:E; auto. apply Ascii.eqb_eq in E. subst c2.
  right. right. exists c1, t. reflexivity.
Qed.

Lemma gmf_split : forall token s pre post, get_math_formula token = (s, pre, post) ->
  token = pre ++ s ++ post.
Proof.
  intros token s pre post. unfold get_math_formula.
  destruct (pre_formula_rest token) as (r & E & _ & _).
  set (q := pre_formula_of token) in *. clearbody q. subst token.
  rewrite skipn_app, skipn_all, Nat.sub_diag. cbn [skipn app].
  assert (H : forall b v x, exists y, x = y ++ post_formula_loop b v x).
  { intros b v x. revert b v. induction x; intros b v; cbn [post_formula_loop]; [exists []; auto|].
    destruct b.
    - rewrite post_loop_true. exists []. reflexivity.
    - destruct (is_op a).
      + destruct (v <? 1).
        * exists (a :: x). rewrite app_nil_r. reflexivity.
        * rewrite post_loop_true. exists []. reflexivity.
      + destruct (IHx false (v + 1)) as [y E]. exists (a :: y). cbn. congruence. }
  destruct (H false 0 r) as [y E].
  set (po := post_formula_loop false 0 r) in *. clearbody po. subst r.
  destruct po as [|c po].
  - intros X. injection X as <- <- <-. rewrite !app_nil_r. reflexivity.
  - intros X. injection X as <- <- <-. f_equal.
    rewrite !app_length.
    replace (length q + (length y + length (c :: po)) - S (length po) - length q)%nat
      with (length y) by (cbn [length]; lia).
    rewrite firstn_app, Nat.sub_diag, firstn_all. cbn [firstn]. rewrite app_nil_r. reflexivity.
Qed.

Lemma parse_integer_range : forall p lbls token n signed v, 1 <= n ->
  parse_integer p lbls token n signed = Ok (Some v) ->
  (signed = false -> 0 <= v < 2 ^ n) /\
  (signed = true -> - 2 ^ (n - 1) <= v < 2 ^ (n - 1) \/
     (0 <= v < 2 ^ n /\ exists a s b, token = a ++ s ++ b /\ nondecimal p s)).
Proof.
  intros p lbls token n signed v Hn. unfold parse_integer, parse_integer_with.
  destruct (get_math_formula token) as [[s pre] post] eqn:G.
  destruct (internal_parse_integer p s) as [[[x|] dec]|] eqn:I; cbn [rbind]; try discriminate.
  destruct (apply_math_formula p lbls math_fuel pre post x); cbn [rbind]; [|discriminate].
  destruct (check_integer a dec n signed) eqn:C; cbn [rbind]; [|discriminate].
  intros H. injection H as <-.
  apply check_integer_accepts in C; auto. unfold accepts in C.
  destruct dec.
  - destruct signed.
    + split; [discriminate|]. intros _. left. destruct C as [C ->]. auto.
    + split; [|discriminate]. intros _. destruct C as [C ->].
      apply Z.mod_pos_bound, pow2_pos; lia.
  - destruct C as [C ->]. split; auto. intros _. right. split; auto.
    exists pre, s, post. split; [eapply gmf_split; eauto|].
    eapply internal_nondecimal; eauto.
Qed.

(** ** Literals are single operands *)

Lemma digit_not_op : forall base c, is_base_digit base c = true -> ~ In c op_chars.
Proof.
  intros base c H I. cbn in I.
  repeat (destruct I as [I|I]; [subst; discriminate|]). destruct I.
Qed.

Lemma numeral_no_ops : forall base s v, numeral base s v -> no_ops s.
Proof.
  intros base s v H. apply numeral_chars in H. destruct H as (_ & F & _).
  exact (Forall_impl _ (digit_not_op base) F).
Qed.

Lemma numeral_no_select : forall base s v t, numeral base s v -> no_select (s ++ t).
Proof.
  intros base s v t H. destruct (numeral_first _ _ _ H) as (c & r & -> & D).
  intros x y E. injection E as <- _. split; intro; subst; discriminate.
Qed.

Lemma literal_plain : forall p s v dec, markers_ok p -> literal p s v dec ->
  (forall c, s = [quote_chr; c; quote_chr] -> ~ In c op_chars) -> plain s.
Proof.
  intros p s v dec [M1 M2] L C. destruct L.
  - split.
    + intros x t E. injection E as <- _. split; discriminate.
    + cbn [tl]. repeat constructor.
      * apply C. reflexivity.
      * cbn. intros I. repeat (destruct I as [I|I]; [discriminate|]). auto.
  - rewrite Forall_forall in M1.
    destruct (M1 (pre, (base, dec))) as [N O]; [rewrite H; apply in_elt|]. cbn [fst] in *.
    split.
    + destruct pre as [|x pre]; [apply (numeral_no_select _ s v []) in H0; rewrite app_nil_r in H0; auto|].
      intros y t E. injection E as <- _. apply (N x pre eq_refl).
    + apply no_ops_tl. apply Forall_app. split; auto. eapply numeral_no_ops; eauto.
  - rewrite Forall_forall in M2.
    pose proof (M2 (suf, (base, dec))) as O. rewrite H in O. specialize (O (in_elt _ _ _)).
    cbn [fst] in *. split.
    + eapply numeral_no_select; eauto.
    + apply no_ops_tl. apply Forall_app. split; auto. eapply numeral_no_ops; eauto.
  - split.
    + rewrite <- (app_nil_r s). eapply numeral_no_select; eauto.
    + apply no_ops_tl. eapply numeral_no_ops; eauto.
  - split.
    + intros x t E. injection E as <- _. split; discriminate.
    + cbn [tl]. eapply numeral_no_ops; eauto.
Qed.

Lemma numeral_ge0 : forall p s v dec, literal p s v dec -> dec = false -> 0 <= v.
Proof.
  intros p s v dec L. destruct L; intros E; try discriminate.
  - lia.
  - assert (0 <= base).
    { assert (I : In (pre, (base, dec)) (prefix_notations p)) by (rewrite H; apply in_elt).
      unfold prefix_notations in I. rewrite !in_app_iff, !in_map_iff in I.
      destruct I as [(y & X & I)|[(y & X & I)|[(y & X & I)|(y & X & I)]]]; inversion X; lia. }
    eapply numeral_nonneg; eauto.
  - assert (0 <= base).
    { assert (I : In (suf, (base, dec)) (suffix_notations p)) by (rewrite H; apply in_elt).
      unfold suffix_notations in I. rewrite !in_app_iff, !in_map_iff in I.
      destruct I as [(y & X & I)|[(y & X & I)|[(y & X & I)|(y & X & I)]]]; inversion X; lia. }
    eapply numeral_nonneg; eauto.
Qed.

Lemma literal_roundtrip : forall p lbls s v dec n signed, 1 <= n ->
  markers_ok p -> literal p s v dec ->
  (forall c, s = [quote_chr; c; quote_chr] -> ~ In c op_chars) ->
  (forall w, accepts n signed dec v w -> parse_integer p lbls s n signed = Ok (Some w)) /\
  ((forall w, ~ accepts n signed dec v w) ->
   exists x, parse_integer p lbls s n signed = Err (AExc (NotInBitRange x n None))).
Proof.
  intros p lbls s v dec n signed Hn M L C.
  rewrite (parse_plain p lbls s v dec) by (eauto using literal_plain).
  split.
  - intros w A. apply check_integer_accepts in A; auto. rewrite A. reflexivity.
  - intros A. destruct (check_integer v dec n signed) eqn:E.
    + apply check_integer_accepts in E; auto. exfalso. eapply A; eauto.
    + apply check_integer_error in E; auto. destruct E as [(D & V & _)|[x ->]].
      * pose proof (numeral_ge0 p s v dec L D). lia.
      * exists x. reflexivity.
Qed.

Lemma formula_div0 : forall p lbls f c1 arg c2 v w,
  chain_result p lbls c1 v w -> arg_denotes p lbls arg 0 ->
  ops_loop (eval_arg p lbls f) (c1 ++ ("/"%char, arg) :: c2) v = Err (PExc ZeroDivisionError).
Proof.
  intros. rewrite ops_loop_app, (ops_loop_chain _ _ _ _ _ _ H). cbn [rbind ops_loop].
  destruct arg as [|c arg].
  - exfalso. inversion H0; subst.
    + destruct sel; [|discriminate]. cbn in H1. subst.
      match goal with L : literal _ [] _ _ |- _ => apply literal_nonempty in L; congruence end.
    + destruct sel; [|discriminate]. cbn in H1. subst. discriminate.
  - rewrite (eval_arg_denotes p lbls f (c :: arg) 0) by (auto; discriminate). reflexivity.
Qed.

Lemma parse_chain_eq : forall p lbls sel s v dec ch n signed,
  selector sel -> no_select s -> no_ops s -> literal p s v dec -> chain_ok ch ->
  parse_integer p lbls (sel ++ s ++ show_chain ch) n signed =
  let? w := ops_loop (eval_arg p lbls 7) ch (select sel v) in
  let? r := check_integer w dec n signed in Ok (Some r).
Proof.
  intros p lbls sel s v dec ch n signed F N O L C. unfold parse_integer, parse_integer_with.
  rewrite gmf_chain by (auto; eapply literal_nonempty; eauto).
  rewrite (literal_parse p s v dec) by auto. cbn [rbind].
  rewrite math_fuel_S, amf_unfold, split_ops_show by auto.
  rewrite apply_pre_select by auto. reflexivity.
Qed.

Lemma label_chain_eq : forall p lbls sel s l ch start,
  selector sel -> no_select s -> no_ops s -> s <> [] -> chain_ok ch ->
  dget str_eqb lbls s = Some l ->
  label_relative p lbls (sel ++ s ++ show_chain ch) start =
  let? w := ops_loop (eval_arg p lbls 7) ch (select sel (lb_org l + lb_base l - start)) in
  Ok (Some w).
Proof.
  intros. unfold label_relative, label_by_name_with.
  rewrite gmf_chain by auto. rewrite H4.
  rewrite math_fuel_S, amf_unfold, split_ops_show by auto.
  rewrite apply_pre_select by auto. reflexivity.
Qed.
