(** Decimal text produced by str() and format(). *)
From Coq Require Import Lia.
From Verif Require Import Py PyFacts SpecUtils State Assembler SpecLink.
Local Open Scope Z_scope.

Lemma ord_digit : forall k, 0 <= k < 10 -> ord (digit_chr k) = 48 + k.
Proof.
  intros k K. assert (k = 0 \/ k = 1 \/ k = 2 \/ k = 3 \/ k = 4 \/ k = 5 \/ k = 6 \/ k = 7 \/ k = 8 \/ k = 9) by lia.
  repeat (destruct H as [->|H]; [reflexivity|]). subst. reflexivity.
Qed.

Lemma decimal_app : forall a x, decimal (a ++ [x]) = 10 * decimal a + (x - 48).
Proof. intros. unfold decimal. rewrite fold_left_app. reflexivity. Qed.

Lemma digits_of_spec : forall f n acc, 0 <= n < 10 ^ Z.of_nat f -> (1 <= f)%nat ->
  exists l, digits_of f 10 n acc = l ++ acc /\ Forall ascii_digit (map ord l) /\
    decimal (map ord l) = n /\
    forall w, (1 <= w)%nat -> n < 10 ^ Z.of_nat w -> (length l <= w)%nat.
Proof.
  induction f; intros n acc N F; [lia|]. cbn [digits_of].
  destruct (n <? 10) eqn:E.
  - apply Z.ltb_lt in E. exists [digit_chr n]. split; [reflexivity|]. cbn [map].
    rewrite ord_digit by lia. split; [constructor; [unfold ascii_digit; lia|constructor]|].
    split; [unfold decimal; cbn [fold_left]; lia|]. intros w W _. cbn; lia.
  - apply Z.ltb_ge in E.
    rewrite Nat2Z.inj_succ, Z.pow_succ_r in N by lia.
    assert (F0 : (1 <= f)%nat).
    { destruct f; [|lia]. cbn in N. lia. }
    assert (D : 0 <= n / 10 < 10 ^ Z.of_nat f).
    { split; [apply Z.div_pos; lia|]. apply Z.div_lt_upper_bound; lia. }
    pose proof (Z.mod_pos_bound n 10 ltac:(lia)) as M. pose proof (Z.div_mod n 10 ltac:(lia)) as DM.
    destruct (IHf (n / 10) (digit_chr (n mod 10) :: acc) D F0) as (l & L1 & L2 & L3 & L4).
    exists (l ++ [digit_chr (n mod 10)]). rewrite L1, <- app_assoc. split; [reflexivity|].
    rewrite map_app. cbn [map]. rewrite ord_digit by lia. split.
    { apply Forall_app. split; auto. constructor; [unfold ascii_digit; lia|constructor]. }
    split; [rewrite decimal_app; lia|].
    intros w W B. rewrite app_length. cbn [length].
    destruct w as [|w]; [lia|]. rewrite Nat2Z.inj_succ, Z.pow_succ_r in B by lia.
    destruct w as [|w]; [cbn in B; lia|].
    assert (length l <= S w)%nat; [|lia]. apply L4; [lia|]. apply Z.div_lt_upper_bound; lia.
Qed.

Lemma nat_digits_spec : forall n, 0 <= n ->
  Forall ascii_digit (map ord (nat_digits 10 n)) /\ decimal (map ord (nat_digits 10 n)) = n /\
  forall w, (1 <= w)%nat -> n < 10 ^ Z.of_nat w -> (length (nat_digits 10 n) <= w)%nat.
Proof.
  intros n N. unfold nat_digits.
  destruct (digits_of_spec (S (Z.to_nat (Z.log2 n))) n []) as (l & E & L2 & L3 & L4); [|lia|].
  - split; auto. rewrite Nat2Z.inj_succ, Z2Nat.id by apply Z.log2_nonneg.
    destruct (Z.eq_dec n 0) as [->|NZ]; [cbn; lia|].
    apply Z.lt_le_trans with (2 ^ Z.succ (Z.log2 n)); [apply Z.log2_spec; lia|].
    apply Z.pow_le_mono_l. lia.
  - rewrite E, app_nil_r. auto.
Qed.

Lemma format_0d_spec : forall w v, (1 <= w)%nat -> 0 <= v < 10 ^ Z.of_nat w ->
  length (format_0d w v) = w /\ Forall ascii_digit (map ord (format_0d w v)) /\
  decimal (map ord (format_0d w v)) = v.
Proof.
  intros w v W V. unfold format_0d. replace (v <? 0) with false by (symmetry; apply Z.ltb_ge; lia).
  cbv zeta. destruct (nat_digits_spec v) as (D1 & D2 & D3); [lia|]. specialize (D3 w W ltac:(lia)).
  split; [rewrite app_length, repeat_length; lia|]. rewrite map_app.
  assert (R : forall k, map ord (repeat "0"%char k) = repeat 48 k).
  { induction k; [reflexivity|]. cbn [repeat map]. rewrite IHk. reflexivity. }
  rewrite R. split.
  - apply Forall_app. split; auto. apply Forall_forall. intros x I. apply repeat_spec in I. subst.
    unfold ascii_digit. lia.
  - unfold decimal. rewrite fold_left_app.
    replace (fold_left (fun acc x : Z => 10 * acc + (x - 48)) (repeat 48 (w - length (nat_digits 10 v))) 0) with 0.
    + exact D2.
    + generalize (w - length (nat_digits 10 v))%nat as k. induction k; [reflexivity|]. cbn. exact IHk.
Qed.
