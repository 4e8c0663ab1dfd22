(** The part of statements.py that opcode handlers use to look at their operands. *)
From Verif Require Import Py Utils State.
Local Open Scope Z_scope.

(** statements.py:64-76: one pattern against one token.  A string pattern that is
    not equal to the token is then treated as a sequence of strings: its
    characters. *)
Definition imatch1 (p : pattern) (tok : str) : bool :=
  match p with
  | PAny => true
  | PFun f => f tok
  | PStr s => str_eqb (upper tok) (upper s) ||
              existsb (fun x => str_eqb (upper tok) (upper [x])) s
  | PTuple l => existsb (fun x => str_eqb (upper tok) (upper x)) l
  end.

(** statements.py:61-77 Instruction.match *)
Definition imatch (tokens : list str) (start : nat) (ps : list pattern) : bool :=
  Nat.eqb (length tokens) (start + length ps) && match_all imatch1 ps (skipn start tokens).

(** statements.py:79-95 Instruction.unbound_match: the index after the match.
    With no pattern the local [index] would be unbound; never called so. *)
Definition unbound_match (tokens : list str) (start : nat) (ps : list pattern) : option nat :=
  if Nat.leb (start + length ps) (length tokens) && match_all imatch1 ps (skipn start tokens)
  then Some (start + length ps)%nat else None.

(** statements.py:97-102 Instruction.apply; [tokens] starts at the first operand. *)
Fixpoint apply_operands {A} (tokens : list str) (fs : list (option (str -> M A))) : M (list A) :=
  match fs with
  | [] => ret []
  | None :: fs' => apply_operands (tl tokens) fs'
  | Some f :: fs' =>
      match tokens with
      | [] => praise IndexError
      | t :: tokens' =>
          let! v := f t in
          let! vs := apply_operands tokens' fs' in
          ret (v :: vs)
      end
  end.
(** statements.py:97-102 with start=1 *)
Definition iapply {A} (tokens : list str) (fs : list (option (str -> M A))) : M (list A) :=
  apply_operands (skipn 1 tokens) fs.

(** list.index, tuple.index; cpu/mips32.py:32, cpu/thumb.py:41 *)
Fixpoint index_of (t : str) (l : list str) : option nat :=
  match l with
  | [] => None
  | x :: r => if str_eqb t x then Some 0%nat else option_map S (index_of t r)
  end.
