(** Properties C36 and C38: the 6502. *)
From Coq Require Import Lia.
From Verif Require Import Py Utils Tokenizer State Assembler Instr Mos6502 Demo.
From Verif Require Import SpecUtils SpecSubst SpecExec SpecCpu SpecMos PyFacts CpuFacts MosFacts.
Local Open Scope Z_scope.

(** ** C36 *)

(** An instruction is accepted exactly if its operand is written in one of the forms of
    the 6502 and the manual has an opcode for the mnemonic in that mode; then the bytes
    are those of the manual, names become references, and nothing else changes. *)
Theorem C36_encoding : forall e s words t0 ops fuel l s', opcode_stmt (mos6502 e) s words t0 ops ->
  exec (mos6502 e) fuel [Stmt KInstruction words l] s = (s', Ok tt) <->
  exists o b ds, written ops o /\ encodes s (upper t0) o b ds /\ emitted (referring s ds) b s'.
Proof. exact mos_encoding. Qed.
Print Assumptions C36_encoding.

(** Bytes and references are determined by the operand. *)
Theorem C36_deterministic : forall s mn o b1 ds1 b2 ds2,
  encodes s mn o b1 ds1 -> encodes s mn o b2 ds2 -> b1 = b2 /\ ds1 = ds2.
Proof.
  intros s mn o b1 ds1 b2 ds2 H1 H2.
  assert (U : forall m a b, op_of mn m a -> op_of mn m b -> a = b).
  { intros m a b A B. apply code_op_iff in A, B. rewrite A in B. injection B. auto. }
  assert (N : forall t n sg v w, num mos_p s t n sg v -> num mos_p s t n sg w -> v = w)
    by (unfold num; intros; congruence).
  assert (NN : forall t n sg v, num mos_p s t n sg v -> not_num mos_p s t n sg -> False)
    by (unfold num, not_num; intros; congruence).
  destruct H1; inversion H2; subst; try discriminate;
    repeat match goal with
    | A : op_of mn ?m ?x, B : op_of mn ?m ?y |- _ =>
        pose proof (U m x y A B); clear B; subst
    | A : num mos_p s ?t ?n ?sg ?x, B : num mos_p s ?t ?n ?sg ?y |- _ =>
        pose proof (N t n sg x y A B); clear B; subst
    | A : num mos_p s ?t ?n ?sg ?x, B : not_num mos_p s ?t ?n ?sg |- _ => destruct (NN _ _ _ _ A B)
    | A : addressed ?o = Some _, B : addressed ?o = Some _ |- _ => rewrite A in B; injection B as ? ? ?; subst
    | A : address s _ _ |- _ => inversion A; subst; clear A
    | A : label_absolute _ _ _ = Ok _, B : label_absolute _ _ _ = Ok _ |- _ =>
        rewrite A in B; injection B as ?; subst
    end; auto; exfalso;
    match goal with
    | A : op_of mn ?m _, B : has mn (Some ?m) -> 256 <= ?v |- _ =>
        assert (256 <= v) by (apply B; red; eauto); lia
    | A : op_of mn ?m _, B : forall v, Some ?w = Some v -> has mn (Some ?m) -> ~ 0 <= v < 256 |- _ =>
        apply (B w eq_refl); [red; eauto|lia]
    end.
Qed.
Print Assumptions C36_deterministic.

(** The mnemonics are those of the manual, in any letter case. *)
Theorem C36_unknown : forall e s words t0 ops fuel l, opcode_stmt (mos6502 e) s words t0 ops ->
  (forall op m, ~ In (op, upper t0, m) manual) ->
  snd (exec (mos6502 e) fuel [Stmt KInstruction words l] s) <> Ok tt.
Proof.
  intros e s words t0 ops fuel l OS U H.
  destruct (exec (mos6502 e) fuel [Stmt KInstruction words l] s) as [s' r] eqn:E. cbn [snd] in H. subst r.
  apply (C36_encoding _ _ _ _ _ _ _ _ OS) in E. destruct E as (o & b & ds & _ & EN & _).
  destruct EN; match goal with H : op_of _ _ _ |- _ => apply U in H; exact H end.
Qed.
Print Assumptions C36_unknown.

Definition mos_run (l : list string) : st * res unit :=
  assemble (mos6502 demo_env) 5 (lines l) (init_st []).
Definition mos_state (l : list string) : st := fst (mos_run l).

Example C36_example :
  let s := mos_state [".org $8000"; "x:"]%string in
  opcode_stmt (mos6502 demo_env) s [#"lda"; #"("; #"$44"; #")"; #"y"] #"lda" [#"("; #"$44"; #")"; #"y"] /\
  written [#"("; #"$44"; #")"; #"y"] (ParenY #"$44") /\
  encodes s #"LDA" (ParenY #"$44") [0xB1; 0x44] [] /\
  encodes s #"JMP" (Direct #"far") [0x4C; 0; 0] [ref #"far" 2 16 1 0] /\
  assembled (mos_state ["lda ($44),y"; "jmp far"; "far: inc $1234,x"; "beq x"; "asl a"; "x:"]%string) =
    [0xB1; 0x44; 0x4C; 0; 0; 0xFE; 0x34; 0x12; 0xF0; 0; 0x0A] /\
  snd (mos_run ["jmp ($1234,x)"]%string) <> Ok tt.
Proof.
  cbv zeta. split; [apply plain_stmt; vm_compute; reflexivity|].
  split; [apply w_paren_y; [|reflexivity]; exists "$"%char, #"44"; split; [reflexivity|discriminate]|].
  split.
  { eapply en_short with (t := #"$44") (m := IndirectY); [reflexivity| | |].
    - apply code_op_iff. vm_compute. reflexivity.
    - apply a_number. vm_compute. reflexivity.
    - lia. }
  split.
  { eapply en_long_name with (known := None) (m := Absolute); [reflexivity| | | |].
    - apply code_op_iff. vm_compute. reflexivity.
    - vm_compute. reflexivity.
    - vm_compute. reflexivity.
    - discriminate. }
  split; [vm_compute; reflexivity|]. vm_compute. discriminate.
Qed.

(** Words after the target of a branch are ignored instead of being rejected. *)
Theorem C36_trailing_refuted : exists s,
  mos_run ["x: bne x some more words"]%string = (s, Ok tt) /\ assembled s = [0xD0; 0].
Proof. eexists. split; vm_compute; reflexivity. Qed.

(** The documented displacement $80..$FF of a backward branch is rejected. *)
Theorem C36_displacement_refuted :
  snd (mos_run ["bne $fe"]%string) <> Ok tt /\ snd (mos_run ["bne -2"]%string) = Ok tt.
Proof. split; vm_compute; [discriminate|reflexivity]. Qed.
Print Assumptions C36_trailing_refuted.
Print Assumptions C36_displacement_refuted.
