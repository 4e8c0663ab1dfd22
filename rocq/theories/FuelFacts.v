(** The bound on the nesting of includes and macro calls has no influence on runs that do
    not exceed it. *)
From Verif Require Import Py Utils Tokenizer State Assembler SpecExec.
Local Open Scope Z_scope.

(** The second computation does what the first does, unless the first runs out of nesting. *)
Definition refines {A} (m1 m2 : M A) : Prop := forall s, snd (m1 s) <> Err (PExc RecursionError) -> m2 s = m1 s.

Lemma refines_refl : forall A (m : M A), refines m m.
Proof. intros A m s _. reflexivity. Qed.
Lemma refines_trans : forall A (m1 m2 m3 : M A), refines m1 m2 -> refines m2 m3 -> refines m1 m3.
Proof. intros A m1 m2 m3 H1 H2 s N. pose proof (H1 s N) as E. rewrite <- E in N. rewrite (H2 s N). exact E. Qed.
Lemma refines_bind : forall A B (m1 m2 : M A) (k1 k2 : A -> M B), refines m1 m2 -> (forall a, refines (k1 a) (k2 a)) ->
  refines (bind m1 k1) (bind m2 k2).
Proof.
  intros A B m1 m2 k1 k2 H K s N. unfold bind in *. destruct (m1 s) as [s' [a|e]] eqn:E.
  - rewrite (H s), E by (rewrite E; discriminate). apply K. exact N.
  - rewrite (H s), E by (rewrite E; intros Q; apply N; injection Q as ->; reflexivity). reflexivity.
Qed.
Lemma refines_iter : forall A (f1 f2 : A -> M unit) l, (forall a, refines (f1 a) (f2 a)) -> refines (iter f1 l) (iter f2 l).
Proof. intros A f1 f2 l H. induction l as [|a l IH]; cbn [iter]; [apply refines_refl|]. apply refines_bind; auto. Qed.

Lemma refines_macro : forall run1 run2 key params args, (forall pl t, refines (run1 pl t) (run2 pl t)) ->
  forall n i, refines (macro_loop run1 key params args n i) (macro_loop run2 key params args n i).
Proof.
  intros run1 run2 key params args R n. induction n as [|n IH]; intros i; cbn [macro_loop]; [apply refines_refl|].
  apply refines_bind; [apply refines_refl|]. intros s. destruct (dget str_eqb (macros s) key) as [m|]; [|apply refines_refl].
  destruct (nth_error (m_body m) i) as [x|]; [|apply refines_refl].
  apply refines_bind; [apply refines_refl|]. intros d. apply refines_bind; [apply refines_refl|]. intros _.
  apply refines_bind; [apply R|]. intros _. apply refines_bind; [apply refines_refl|]. intros _. apply IH.
Qed.
Lemma refines_instruction : forall c fuel fuel', (fuel <= fuel')%nat -> forall line pl t,
  refines (instruction_assemble c fuel line pl t) (instruction_assemble c fuel' line pl t).
Proof.
  intros c fuel. induction fuel as [|fuel IH]; intros fuel' L line pl t; destruct fuel' as [|fuel']; cbn [instruction_assemble];
    (apply refines_bind; [apply refines_refl|]); intros s; (destruct (macro_recording s); [apply refines_refl|]);
    (apply refines_bind; [apply refines_refl|]); intros _; (apply refines_bind; [apply refines_refl|]); intros t0;
    (destruct (dget str_eqb (macros s) _) as [m|]; [|apply refines_refl]).
  - apply refines_refl.
  - intros s' N. exfalso. apply N. reflexivity.
  - inversion L.
  - apply refines_macro. intros pl' t'. apply IH. apply le_S_n. exact L.
Qed.
Lemma refines_directive : forall c asm1 asm2 d t, (forall x, refines (asm1 x) (asm2 x)) ->
  refines (run_directive c asm1 d t) (run_directive c asm2 d t).
Proof.
  intros c asm1 asm2 d t H. destruct d; cbn [run_directive]; try apply refines_refl.
  unfold directive_include. destruct (negb _); [apply refines_refl|].
  repeat (apply refines_bind; [apply refines_refl|]; intros ?). apply H.
Qed.
Lemma refines_statement : forall c fuel fuel' asm1 asm2 x, (fuel <= fuel')%nat -> (forall x, refines (asm1 x) (asm2 x)) ->
  refines (statement_assemble c fuel asm1 x) (statement_assemble c fuel' asm2 x).
Proof.
  intros c fuel fuel' asm1 asm2 x L H. unfold statement_assemble. destruct (s_kind x);
    [apply refines_instruction; exact L|apply refines_refl|].
  - unfold directive_assemble. apply refines_bind; [apply refines_refl|]. intros s. apply refines_bind; [apply refines_refl|]. intros t0.
    destruct (dget str_eqb (c_directives c) _); [|apply refines_refl]. apply refines_directive. exact H.
Qed.
Lemma refines_assemble : forall c fuel fuel', (fuel <= fuel')%nat -> forall text, refines (assemble c fuel text) (assemble c fuel' text).
Proof.
  intros c fuel. induction fuel as [|fuel IH]; intros fuel' L text; destruct fuel' as [|fuel']; try (inversion L; fail); try apply refines_refl;
    cbn [assemble]; (apply refines_bind; [apply refines_refl|]); intros ss; (apply refines_bind; [|intros _; apply refines_refl]);
    apply refines_iter; intros x; apply refines_statement; auto.
  - intros y s N. exfalso. apply N. reflexivity.
  - intros y. apply IH. apply le_S_n. exact L.
Qed.
Lemma refines_exec : forall c fuel fuel' ss, (fuel <= fuel')%nat -> refines (exec c fuel ss) (exec c fuel' ss).
Proof.
  intros c fuel fuel' ss L. unfold exec. apply refines_iter. intros x. apply refines_statement; [exact L|].
  intros y. destruct fuel as [|f]; [intros s N; exfalso; apply N; reflexivity|]. destruct fuel' as [|f']; [inversion L|].
  apply refines_assemble. apply le_S_n. exact L.
Qed.
