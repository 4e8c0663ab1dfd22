(** Values of operands never change when more labels become known. *)
From Coq Require Import Lia.
From Verif Require Import Py PyFacts Utils Tokenizer State Assembler SpecUtils SpecParse SpecExec ParseFacts.
Local Open Scope Z_scope.

Lemma dget_extends : forall A (l1 l2 : list (str * A)) k v, extends l1 l2 ->
  dget str_eqb l1 k = Some v -> dget str_eqb l2 k = Some v.
Proof.
  intros A l1 l2 k v (x & ->) H. induction l1 as [|[k' v'] l1 IH]; [discriminate|].
  cbn [dget app] in *. destruct (str_eqb k k'); auto.
Qed.

Lemma ops_loop_mono : forall (g1 g2 : str -> res Z) ops v r,
  (forall a x, g1 a = Ok x -> g2 a = Ok x) -> ops_loop g1 ops v = Ok r -> ops_loop g2 ops v = Ok r.
Proof.
  intros g1 g2 ops. induction ops as [|[op arg] ops IH]; intros v r G H; [exact H|]. cbn [ops_loop] in *.
  destruct arg as [|ch arg].
  - cbn [rbind] in *. destruct (apply_command op v 1); [|discriminate]. cbn [rbind] in *. auto.
  - destruct (g1 (ch :: arg)) as [x|] eqn:E; [|discriminate]. rewrite (G _ _ E). cbn [rbind] in *.
    destruct (apply_command op v x); [|discriminate]. cbn [rbind] in *. auto.
Qed.

Lemma amf_mono : forall p l1 l2, extends l1 l2 -> forall f pre post v r,
  apply_math_formula p l1 f pre post v = Ok r -> apply_math_formula p l2 f pre post v = Ok r.
Proof.
  intros p l1 l2 X. induction f; intros pre post v r H; [exact H|].
  rewrite amf_unfold in *. revert H. apply ops_loop_mono. intros arg x.
  unfold eval_arg, parse_integer_with, label_by_name_with.
  destruct (get_math_formula arg) as [[t pre'] post'].
  destruct (internal_parse_integer p t) as [[[a|] d]|]; cbn [rbind]; auto.
  - destruct (apply_math_formula p l1 f pre' post' a) as [y|] eqn:E; [|discriminate].
    rewrite (IHf _ _ _ _ E). cbn [rbind]. destruct (check_integer y d 64 false); auto.
  - destruct (dget str_eqb l1 t) as [lb|] eqn:D; [|discriminate]. rewrite (dget_extends _ _ _ _ _ X D).
    destruct (apply_math_formula p l1 f pre' post' (label_address lb - 0)) as [y|] eqn:E; [|discriminate].
    rewrite (IHf _ _ _ _ E). auto.
Qed.

Lemma parse_mono : forall p l1 l2 t n sg r, extends l1 l2 ->
  parse_integer p l1 t n sg = Ok r -> parse_integer p l2 t n sg = Ok r.
Proof.
  intros p l1 l2 t n sg r X. unfold parse_integer, parse_integer_with.
  destruct (get_math_formula t) as [[tk pre] post].
  destruct (internal_parse_integer p tk) as [[[v|] dec]|]; cbn [rbind]; [|exact (fun H => H)|discriminate].
  generalize (amf_mono p l1 l2 X math_fuel pre post v). generalize (apply_math_formula p l1 math_fuel pre post v).
  generalize (apply_math_formula p l2 math_fuel pre post v). intros r2 r1 M.
  destruct r1 as [y|]; [|discriminate]. rewrite (M y eq_refl). auto.
Qed.
Lemma label_mono : forall p l1 l2 t start v, extends l1 l2 ->
  label_relative p l1 t start = Ok (Some v) -> label_relative p l2 t start = Ok (Some v).
Proof.
  intros p l1 l2 t start v X. unfold label_relative, label_by_name_with.
  destruct (get_math_formula t) as [[tk pre] post].
  destruct (dget str_eqb l1 tk) as [lb|] eqn:D; [|discriminate]. rewrite (dget_extends _ _ _ _ _ X D).
  generalize (amf_mono p l1 l2 X math_fuel pre post (label_address lb - start)).
  generalize (apply_math_formula p l1 math_fuel pre post (label_address lb - start)).
  generalize (apply_math_formula p l2 math_fuel pre post (label_address lb - start)). intros r2 r1 M.
  destruct r1 as [y|]; [|discriminate]. rewrite (M y eq_refl). auto.
Qed.
Lemma absolute_mono : forall p l1 l2 t v, extends l1 l2 ->
  label_absolute p l1 t = Ok (Some v) -> label_absolute p l2 t = Ok (Some v).
Proof. intros p l1 l2 t v X. rewrite !label_absolute_relative. apply label_mono; auto. Qed.

(** A plain name has the address of its label. *)
Lemma plain_relative : forall p lbls t start v, no_select t -> no_ops t -> t <> [] ->
  label_relative p lbls t start = Ok (Some v) -> exists a, address_of lbls t a /\ v = a - start.
Proof.
  intros p lbls t start v N O NE H. unfold label_relative, label_by_name_with in H.
  assert (G : get_math_formula t = (t, [], [])).
  { apply (gmf_plain [] t); [constructor|]. apply no_ops_plain; auto. }
  rewrite G in H. destruct (dget str_eqb lbls t) as [l|] eqn:D; [|discriminate].
  exists (lb_org l + lb_base l). split; [exists l; auto|].
  assert (A : forall f x, apply_math_formula p lbls f [] [] x = Ok x) by (intros [|f] x; reflexivity).
  rewrite A in H. cbn [rbind] in H. injection H as <-. reflexivity.
Qed.
