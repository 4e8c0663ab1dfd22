(** Specification for C82: a program with more labels. *)
From Verif Require Import Py Utils Tokenizer State Assembler SpecPlace.
Local Open Scope Z_scope.

(** Every label of the first table is in the second, with the same meaning. *)
Definition keeps (l1 l2 : list (str * label)) : Prop :=
  forall k v, dget str_eqb l1 k = Some v -> dget str_eqb l2 k = Some v.
(** The second table is the first with the labels [extra] added. *)
Definition plus (extra l1 l2 : list (str * label)) : Prop :=
  forall k, dget str_eqb l2 k = match dget str_eqb l1 k with Some v => Some v | None => dget str_eqb extra k end.

(** A name is in both tables. *)
Definition clash (extra l : list (str * label)) : Prop :=
  exists k, dget str_eqb extra k <> None /\ dget str_eqb l k <> None.

(** Knowing the labels [extra] from the start: if a computation succeeds, then either it defines
    none of them, and does the same with them, or it stops at the second definition of one. *)
Definition same_with_more {A} (m : M A) : Prop := forall extra s s' a l, m s = (s', Ok a) ->
  ~ clash extra (labels s) -> plus extra (labels s) l ->
  (~ clash extra (labels s') /\ exists l', plus extra (labels s') l' /\ m (set_labels s l) = (set_labels s' l', Ok a)) \/
  (clash extra (labels s') /\ snd (m (set_labels s l)) = Err (AExc LabelAlreadyDefined)).

(** A successful computation that defines no label does the same when more labels are known. *)
Definition calm {A} (m : M A) : Prop := forall s s' a L, keeps (labels s) L -> m s = (s', Ok a) ->
  labels s' = labels s /\ m (set_labels s L) = (set_labels s' L, Ok a).
(** This holds for what subclasses add. *)
Definition calm_plugins (c : cfg) : Prop :=
  (forall k f tokens, dget str_eqb (c_instructions c) k = Some (OFun f) -> calm (f tokens)) /\
  (forall k f tokens, dget str_eqb (c_directives c) k = Some (D_custom f) -> calm (f tokens)) /\
  (forall m, In m (c_pre_link c ++ c_post_link c) -> calm m).

(** The same for a computation followed by linking: unless a name is defined twice, nothing
    changes. *)
Definition linked_alike (c : cfg) (m : M unit) : Prop := forall extra s s' l,
  tidy s -> (m ;; link c dummy_linker) s = (s', Ok tt) -> ~ clash extra (labels s') -> plus extra (labels s) l ->
  exists l', plus extra (labels s') l' /\ (m ;; link c dummy_linker) (set_labels s l) = (set_labels s' l', Ok tt).
