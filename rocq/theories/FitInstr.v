(** The program logic of FitFacts for Instruction.apply. *)
From Coq Require Import Lia.
From Verif Require Import Py PyFacts Utils Tokenizer State Assembler SpecUtils SpecExec SpecLink SpecCpu Instr
  UtilsFacts CpuFacts FitFacts.
Local Open Scope Z_scope.

Definition quiet_fn {A} (o : option (str -> M A)) : Prop :=
  match o with Some f => forall t, pure (fun _ ds => ds = []) (f t) | None => True end.
(** At most one reference, satisfying P. *)
Definition at_most (P : labeldata -> Prop) (ds : list labeldata) : Prop :=
  ds = [] \/ exists d, ds = [d] /\ P d.
Definition one_fn {A} (P : labeldata -> Prop) (f : str -> M A) : Prop :=
  forall t, pure (fun _ ds => at_most P ds) (f t).

Lemma pure_apply : forall A (fs : list (option (str -> M A))) tokens, Forall quiet_fn fs ->
  pure (fun _ ds => ds = []) (apply_operands tokens fs).
Proof.
  intros A fs. induction fs as [|[f|] fs IH]; intros tokens F; inversion F; subst; cbn [apply_operands].
  - apply pure_ret. reflexivity.
  - destruct tokens as [|t tokens]; [apply pure_praise|].
    eapply pure_bind; [apply H1|]. intros v ds ->. cbn [app].
    eapply pure_bind; [apply IH; assumption|]. intros vs ds ->. apply pure_ret. reflexivity.
  - apply IH. assumption.
Qed.
Lemma pure_apply_one : forall A P pre (g : str -> M A) post tokens,
  Forall quiet_fn pre -> one_fn P g -> Forall quiet_fn post ->
  pure (fun _ ds => at_most P ds) (apply_operands tokens (pre ++ Some g :: post)).
Proof.
  intros A P pre. induction pre as [|[f|] pre IH]; intros g post tokens F G Q; cbn [app apply_operands].
  - destruct tokens as [|t tokens]; [apply pure_praise|].
    eapply pure_bind; [apply G|]. intros v ds O.
    eapply pure_bind; [apply pure_apply; assumption|]. intros vs es ->. apply pure_ret. rewrite !app_nil_r. exact O.
  - inversion F; subst. destruct tokens as [|t tokens]; [apply pure_praise|].
    eapply pure_bind; [apply H1|]. intros v ds ->. cbn [app].
    eapply pure_bind; [apply IH; eassumption|]. intros vs es O. apply pure_ret. rewrite app_nil_r. exact O.
  - inversion F; subst. apply IH; assumption.
Qed.

Lemma at_most_poil : forall p d sg, sound_ref d -> pure (fun _ ds => at_most (fun x => x = d) ds) (parse_integer_or_label p d sg).
Proof.
  intros p d sg S. eapply pure_weaken; [apply pure_poil; exact S|].
  intros v ds [->|[_ ->]]; [left; reflexivity|right; exists d; split; reflexivity].
Qed.
(** A reference to the n bytes of the instruction word itself. *)
Definition whole (n : Z) (d : labeldata) : Prop := ld_offset d = 0 /\ ld_size d = n.
Lemma placed_whole : forall n ds, at_most (whole n) ds -> placed n ds.
Proof. intros n ds [->|(d & -> & O & S)]; [apply placed_nil|apply placed_one; lia]. Qed.

(** A handler which reads operands with at most one reference and then builds a word of
    n bytes. *)
Definition builds (n : Z) (b : option bytes) (ds : list labeldata) : Prop :=
  ds = [] /\ forall x, b = Some x -> Forall is_byte x /\ zlen x = n.
Lemma pure_word : forall A n (m : M A) (k : A -> M (option bytes)),
  pure (fun _ ds => at_most (whole n) ds) m -> (forall a, pure (builds n) (k a)) -> pure ok_out (bind m k).
Proof.
  intros A n m k Hm Hk. eapply pure_bind; [exact Hm|]. intros a ds O.
  eapply pure_weaken; [apply Hk|]. intros b es [-> B] x E. rewrite app_nil_r.
  destruct (B x E) as [B1 B2]. split; [exact B1|]. rewrite B2. apply placed_whole. exact O.
Qed.
Lemma pure_at_most : forall A P (m : M A), pure (fun _ ds => ds = []) m -> pure (fun _ ds => at_most P ds) m.
Proof. intros A P m H. eapply pure_weaken; [exact H|]. intros a ds ->. left. reflexivity. Qed.
