(** The 6502 handlers are well-behaved. *)
From Coq Require Import Lia.
From Verif Require Import Py PyFacts Utils Tokenizer State Assembler Instr Mos6502.
From Verif Require Import SpecUtils SpecExec SpecLink SpecCpu SpecMos CpuFacts FitFacts MosFacts.
Local Open Scope Z_scope.

Lemma pure_eke : forall A (Q : A -> list labeldata -> Prop) m, pure Q m -> pure Q (except_key_error m).
Proof.
  intros A Q m H s. destruct (H s) as (ds & r & H1 & H2 & H3).
  exists ds, (match r with Err (PExc KeyError) => Err (AExc UnsupportedModeForOpcode) | _ => r end).
  split; [|split; auto].
  - intros s2 V. unfold except_key_error. rewrite (H1 s2 V). destruct r as [a|[e|e]]; auto. destruct e; auto.
  - intros a E. apply H3. destruct r as [x|[e|[]]]; try discriminate; auto.
Qed.
Lemma pure_kwarg : forall kw k, pure (fun _ ds => ds = []) (kwarg kw k).
Proof. intros. unfold kwarg. destruct (dget str_eqb kw k); [apply pure_ret; auto|apply pure_praise]. Qed.

Lemma address_ok : forall a z t, pure ok_out (manage_address a z t).
Proof. intros. unfold manage_address. repeat (pure_step; try out). Qed.

Lemma mode_ok : forall kw tokens, pure ok_out (manage_mode kw tokens).
Proof.
  intros. unfold manage_mode. pure_step; [apply pure_araise|]. apply pure_eke.
  repeat first [ pure_step
               | eapply pure_bind; [apply pure_kwarg|]; intros ? ? ->
               | eapply pure_weaken; [apply address_ok|]; intros ? ? X; exact X
               | out ].
Qed.
Lemma branch_ok : forall code tokens, pure ok_out (manage_branching code tokens).
Proof.
  intros. unfold manage_branching. pure_step.
  apply pure_pc with (k := fun z =>
    let! address := parse_integer_or_label mos6502_p (LabelData a 1 8 (z + 2) 1 1 None None None) false in
    let! b := lift (pack false [FB; Fb] [code; address]) in ret (Some b)).
  intros z. repeat (pure_step; try out).
Qed.

Lemma mos_handlers : forall e k f, dget str_eqb (c_instructions (mos6502 e)) k = Some (OFun f) ->
  forall tokens, pure ok_out (f tokens).
Proof.
  intros e k f D tokens. rewrite mos_lookup in D.
  destruct (dget str_eqb mos6502_modes k) as [kw|]; [injection D as <-; apply mode_ok|].
  destruct (dget str_eqb mos6502_branches k) as [c|]; [injection D as <-; apply branch_ok|].
  destruct (dget str_eqb mos6502_static k); discriminate.
Qed.
Lemma mos_fits : forall e, fits (mos6502 e) /\ handlers neat (mos6502 e).
Proof.
  intros e. split; [split; [|split]|].
  - intros k f D. apply pure_handler. eapply mos_handlers; eauto.
  - intros k b D. rewrite mos_lookup in D.
    destruct (dget str_eqb mos6502_modes k) as [kw|]; [discriminate|].
    destruct (dget str_eqb mos6502_branches k) as [c|]; [discriminate|].
    destruct (dget str_eqb mos6502_static k) as [z|] eqn:E; [|discriminate]. injection D as <-.
    constructor; [|constructor]. eapply manual_bytes. apply code_op_iff with (m := Implied). exact E.
  - apply bare_mk.
  - intros k f D. apply pure_handler. eapply mos_handlers; eauto.
Qed.
