(** Vocabulary for the ways linking can fail with the default linker. *)
From Verif Require Import Py Utils State Assembler SpecUtils SpecParse SpecLink.
Local Open Scope Z_scope.

(** What stops linking at the reference d at address a of an output of n bytes: a fault,
    a name that is not a label, arithmetic in the operand that fails, or a field that is
    not inside the output. *)
Inductive stops (p : pcfg) (lbls : list (str * label)) (n a : Z) (d : labeldata) : exc -> Prop :=
| st_fault e : fault p lbls d e -> stops p lbls n a d (AExc e)
| st_unknown : label_absolute p lbls (ld_label d) = Ok None ->
    stops p lbls n a d (AExc (UnknownLabel (ld_label d)))
| st_formula e : label_absolute p lbls (ld_label d) = Err e -> stops p lbls n a d e
| st_distance v e : ld_relative d <> 0 -> label_absolute p lbls (ld_label d) = Ok (Some v) ->
    label_relative p lbls (ld_label d) (ld_relative d) = Err e -> stops p lbls n a d e
| st_outside ch : ref_changes p lbls (a, d) ch -> ~ Forall (fun x => 0 <= fst x < n) ch ->
    stops p lbls n a d (PExc IndexError).

(** The first reference that stops linking; those before it are fine. *)
Definition stopped (p : pcfg) (s : st) (a : Z) (d : labeldata) (e : exc) : Prop :=
  exists l1 chs l2, labels_addresses s = l1 ++ (a, d) :: l2 /\
    Forall2 (ref_changes p (labels s)) l1 chs /\
    Forall (fun x => 0 <= fst x < zlen (assembled s)) (concat chs) /\
    stops p (labels s) (zlen (assembled s)) a d e.

(** An operand that uses a name after an operator, such as x in a+<x*2. *)
Definition mentions (t name : str) : Prop :=
  exists sel head ch1 op sel' ch2, t = sel ++ head ++ show_chain (ch1 ++ (op, sel' ++ name) :: ch2) /\
    selector sel /\ no_select head /\ no_ops head /\ head <> [] /\
    chain_ok (ch1 ++ (op, sel' ++ name) :: ch2) /\
    selector sel' /\ no_select name /\ no_ops name /\ name <> [].
