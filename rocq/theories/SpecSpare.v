(** Specification for C83: definitions and macros that are not used. *)
From Verif Require Import Py Utils Tokenizer State Assembler SpecSubst SpecExec.
Local Open Scope Z_scope.

(** The state with other definitions and macros. *)
Definition put (s : st) (D : list (str * str)) (N : list (str * macro)) : st := set_macros (set_defines s D) N.

(** A computation that neither looks at definitions and macros nor changes them. *)
Definition blind {A} (m : M A) : Prop := forall s D N,
  m (put s D N) = (put (fst (m s)) D N, snd (m s)) /\
  defines (fst (m s)) = defines s /\ macros (fst (m s)) = macros s /\ macro_recording (fst (m s)) = macro_recording s.
(** This holds for what subclasses add. *)
Definition blind_plugins (c : cfg) : Prop :=
  (forall k f tokens, dget str_eqb (c_instructions c) k = Some (OFun f) -> blind (f tokens)) /\
  (forall k f tokens, dget str_eqb (c_directives c) k = Some (D_custom f) -> blind (f tokens)) /\
  (forall m, In m (c_pre_link c ++ c_post_link c) -> blind m).

Section Spare.
  (** Some names. *)
  Context (X : str -> Prop).

  Definition proper : Prop := forall w, X w -> w <> [] /\ Forall name_char w.
  (** No word of the token is one of the names. *)
  Definition lacks (token : str) : Prop := forall ks w, chunks_of token ks -> In (Name w) ks -> ~ X w.
  Definition stmt_lacks (x : stmt) : Prop := Forall lacks (s_tokens x).
  Definition text_lacks (code : str) : Prop := forall ss, tokenize code = Ok ss -> Forall stmt_lacks ss.
  (** Neither the files of the host. *)
  Definition files_lack (c : cfg) : Prop := forall name code, file_text (c_env c) name = Some code -> text_lacks code.

  (** Nothing that was defined before under other names uses them. *)
  Definition unused (c : cfg) (s : st) : Prop :=
    (forall k v, ~ X k -> dget str_eqb (defines s) k = Some v -> lacks v) /\
    (forall k m x, ~ X k -> dget str_eqb (macros s) (op_key c k) = Some m -> In x (m_body m) -> stmt_lacks x) /\
    (forall key, macro_recording s = Some key -> exists k, ~ X k /\ key = op_key c k).

  (** The same definitions and macros but for these names. *)
  Definition else_same (c : cfg) (s : st) (D : list (str * str)) (N : list (str * macro)) : Prop :=
    (forall k, ~ X k -> dget str_eqb D k = dget str_eqb (defines s) k) /\
    (forall k, ~ X k -> dget str_eqb N (op_key c k) = dget str_eqb (macros s) (op_key c k)).

  (** Whatever these names mean, the computation does the same, and uses none of them later. *)
  Definition indifferent {A} (c : cfg) (m : M A) : Prop := forall s D N, unused c s -> else_same c s D N ->
    unused c (fst (m s)) /\
    exists D' N', else_same c (fst (m s)) D' N' /\ m (put s D N) = (put (fst (m s)) D' N', snd (m s)) /\
      (D = defines s -> D' = defines (fst (m s))) /\ (N = macros s -> N' = macros (fst (m s))).
End Spare.
