(** Small programs on which the framework does not do what one would expect. *)
From Verif Require Import Py Utils Tokenizer State Assembler SpecParse SpecLink Demo Ppc PropsPpc.
Local Open Scope Z_scope.

Definition demo_result (l : list string) : bytes * res unit :=
  let r := assemble demo 5 (lines l) (init_st []) in (assembled (fst r), snd r).

(** An unclosed macro takes the rest of the program without an error; an unclosed repeat
    emits its body once. *)
Theorem C30_unclosed_refuted :
  ~ (forall l, snd (demo_result l) = Ok tt -> let s := fst (assemble demo 5 (lines l) (init_st [])) in
       macro_recording s = None /\ repeat_ s = None) /\
  demo_result ["nop"; ".macro m"; "nop"; "ldi 1"]%string = ([0xea], Ok tt) /\
  demo_result [".repeat 3"; "nop"]%string = ([0xea], Ok tt).
Proof.
  split; [|split; vm_compute; reflexivity]. intros H.
  destruct (H [".repeat 3"; "nop"]%string ltac:(vm_compute; reflexivity)) as [_ E]. vm_compute in E. discriminate E.
Qed.

(** Numbers may have underscores and a second prefix, as int() of Python takes them. *)
Theorem C06_lenient_refuted :
  demo_result [".db 1_0"; ".db $0x10"]%string = ([10; 16], Ok tt) /\
  (forall base v, ~ numeral base #"1_0" v).
Proof.
  split; [vm_compute; reflexivity|]. intros base v N.
  assert (F : Forall (fun c => exists d, digit d c) #"1_0").
  { clear - N. induction N as [c d D _|s v c d N IH D _]; [constructor; [eauto|constructor]|].
    apply Forall_app. split; [exact IH|constructor; [eauto|constructor]]. }
  inversion F as [|? ? _ F1]; subst. inversion F1 as [|? ? [d [_ D]] _]; subst.
  assert (X : forall l, nth_error l (Z.to_nat d) = Some "_"%char -> existsb (Ascii.eqb "_") l = true).
  { intros l E. apply existsb_exists. exists "_"%char. split; [eapply nth_error_In; eauto|reflexivity]. }
  destruct D as [D|D]; apply X in D; discriminate D.
Qed.

(** A malformed number in a directive and a lone colon raise builtin exceptions. *)
Theorem C28_directive_refuted :
  demo_result [".db $zz"]%string = ([], Err (PExc ValueError)) /\
  demo_result [":"]%string = ([], Err (PExc IndexError)) /\
  demo_result ["ldi $zz"]%string = ([], Err (AExc InvalidInstruction)).
Proof. repeat split; vm_compute; reflexivity. Qed.

(** At address 0 a distance is taken for an address: forward branches reach twice as far
    as elsewhere, compare C66_reach_refuted. *)
Theorem C66_start_refuted :
  snd (link pp dummy_linker (fst (p_run ["bne x"; ".org 0x3000"; "x: nop"]%string))) = Ok tt /\
  snd (link pp dummy_linker (fst (p_run ["nop"; "bne x"; ".org 0x3000"; "x: nop"]%string))) =
    Err (AExc (NotInBitRange 0x2ffc 14 (Some #"x"))).
Proof. split; vm_compute; reflexivity. Qed.

Print Assumptions C30_unclosed_refuted.
Print Assumptions C06_lenient_refuted.
Print Assumptions C28_directive_refuted.
Print Assumptions C66_start_refuted.
