(** Textual expansion of macros. *)
From Verif Require Import Py Tokenizer State Assembler SpecSubst SpecExec.
Local Open Scope Z_scope.

(** Parameter names with their arguments; for a repeated parameter the last one counts. *)
Definition bindings (params args : list str) : list (str * str) := rev (combine params args).

Section Expansion.
  Context (c : cfg) (ms : list (str * macro)) (ds : list (str * str)).

  (** [expands busy t out]: the instruction t stands for the opcode instructions out.
      Defined names are replaced first; then the first token selects a macro, whose body
      is expanded with the parameters replaced, or an opcode.  [busy] holds the macros
      being expanded: a macro does not use itself. *)
  Inductive expands : list str -> list str -> list (list str) -> Prop :=
  | ex_op busy t t0 ops : Forall2 (substituted ds) t (t0 :: ops) ->
      dget str_eqb ms (op_key c t0) = None -> expands busy t [t0 :: ops]
  | ex_macro busy t t0 args m out : Forall2 (substituted ds) t (t0 :: args) ->
      dget str_eqb ms (op_key c t0) = Some m -> ~ In (op_key c t0) busy ->
      (length (m_args m) <= length args)%nat ->
      expands_body (op_key c t0 :: busy) (bindings (m_args m) args) (m_body m) out ->
      expands busy t out
  with expands_body : list str -> list (str * str) -> list stmt -> list (list str) -> Prop :=
  | eb_nil busy b : expands_body busy b [] []
  | eb_cons busy b x body t out outs : Forall2 (substituted b) (s_tokens x) t ->
      expands busy t out -> expands_body busy b body outs ->
      expands_body busy b (x :: body) (out ++ outs).
End Expansion.

(** Opcode instructions one after the other. *)
Definition run_opcodes (c : cfg) (l : list (list str)) : M unit :=
  iter (fun t => opcode_assemble c (match t with t0 :: _ => op_key c t0 | [] => [] end) t) l.

(** Opcode handlers neither look at the macro table nor change it, the defines or the
    recording mode. *)
Definition macros_ignored (c : cfg) : Prop :=
  forall k f tokens s, dget str_eqb (c_instructions c) k = Some (OFun f) ->
    (forall ms, f tokens (set_macros s ms) = (set_macros (fst (f tokens s)) ms, snd (f tokens s))) /\
    defines (fst (f tokens s)) = defines s /\ macro_recording (fst (f tokens s)) = macro_recording s.
