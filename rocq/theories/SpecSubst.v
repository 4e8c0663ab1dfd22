(** Independent description of define substitution. *)
From Verif Require Import Py.
Local Open Scope Z_scope.

(** The characters of names. *)
Definition name_chars : str :=
  #"abcdefghijklmnopqrstuvwxyzABCDEFGHIJKLMNOPQRSTUVWXYZ0123456789_.".
Definition name_char (c : ascii) : Prop := In c name_chars.

(** A token seen as maximal runs of name characters and other characters. *)
Inductive chunk := Name (w : str) | Other (c : ascii).
Definition chunk_ok (k : chunk) : Prop :=
  match k with Name w => w <> [] /\ Forall name_char w | Other c => ~ name_char c end.
Definition chunk_text (k : chunk) : str := match k with Name w => w | Other c => [c] end.
Fixpoint maximal (ks : list chunk) : Prop :=
  match ks with
  | Name _ :: (Name _ :: _) => False
  | _ :: t => maximal t
  | [] => True
  end.
Definition chunks_of (token : str) (ks : list chunk) : Prop :=
  Forall chunk_ok ks /\ maximal ks /\ token = flat_map chunk_text ks.

(** [value dict k v]: the name k is defined as v. *)
Fixpoint value_of (dict : list (str * str)) (k : str) : option str :=
  match dict with
  | [] => None
  | (k', v) :: t => if list_eq_dec ascii_dec k k' then Some v else value_of t k
  end.

Definition chunk_subst (dict : list (str * str)) (k : chunk) : str :=
  match k with
  | Name w => match value_of dict w with Some v => v | None => w end
  | Other c => [c]
  end.

(** [substituted dict token out] *)
Inductive substituted (dict : list (str * str)) (token : str) : str -> Prop :=
| subst_whole v : value_of dict token = Some v -> substituted dict token v
| subst_parts ks : value_of dict token = None -> chunks_of token ks ->
    substituted dict token (flat_map (chunk_subst dict) ks).

(** The token mentions no defined name. *)
Definition untouched (dict : list (str * str)) (token : str) : Prop :=
  value_of dict token = None /\
  forall ks, chunks_of token ks -> forall w, In (Name w) ks -> value_of dict w = None.
