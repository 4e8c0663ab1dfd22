(** Vocabulary for comparing two runs: states that agree except for the log flag, or
    except for line numbers and the provisional end of the open section. *)
From Verif Require Import Py Tokenizer State Assembler.
Local Open Scope Z_scope.

(** Statements that agree, if [ln] except for their line numbers. *)
Definition same_stmt (ln : bool) (x y : stmt) : Prop :=
  s_kind x = s_kind y /\ s_tokens x = s_tokens y /\ (ln = false -> s_line x = s_line y).
Definition same_macro (ln : bool) (x y : str * macro) : Prop :=
  fst x = fst y /\ m_args (snd x) = m_args (snd y) /\
  Forall2 (same_stmt ln) (m_body (snd x)) (m_body (snd y)).

(** The section table without the end and size of the open section. *)
Definition forget_end (cur : option str) (l : list (str * section)) : list (str * section) :=
  match cur with
  | Some (c :: n) =>
      match dget str_eqb l (c :: n) with
      | Some x => dset str_eqb l (c :: n) (MkSection (sc_start x) (sc_offset x) (sc_permissions x) None None)
      | None => l
      end
  | _ => l
  end.

(** Agreement of states: everything is equal, but with [lg] the log flag is free, and
    with [ln] the line numbers of recorded macros and the end and size of the section
    still open are. *)
Definition agree (lg ln : bool) (s1 s2 : st) : Prop :=
  assembled s2 = assembled s1 /\ labels s2 = labels s1 /\ current_org s2 = current_org s1 /\
  current_org_end s2 = current_org_end s1 /\ org_counter s2 = org_counter s1 /\
  labels_addresses s2 = labels_addresses s1 /\
  Forall2 (same_macro ln) (macros s1) (macros s2) /\
  macro_recording s2 = macro_recording s1 /\ repeat_ s2 = repeat_ s1 /\
  (lg = false -> log s2 = log s1) /\
  (if ln then forget_end (current_section s1) (sections s2) = forget_end (current_section s1) (sections s1)
   else sections s2 = sections s1) /\
  current_section s2 = current_section s1 /\ exports s2 = exports s1 /\ defines s2 = defines s1 /\
  cartridge_set s2 = cartridge_set s1 /\ x86_bits s2 = x86_bits s1 /\
  elf_header s2 = elf_header s1 /\ relocations s2 = relocations s1.

(** A computation that cannot tell agreeing states apart. *)
Definition oblivious {A} (lg ln : bool) (m : M A) : Prop :=
  forall s1 s2, agree lg ln s1 s2 ->
    agree lg ln (fst (m s1)) (fst (m s2)) /\ snd (m s2) = snd (m s1).
Definition plugins_oblivious (lg ln : bool) (c : cfg) : Prop :=
  (forall k f tokens, dget str_eqb (c_instructions c) k = Some (OFun f) -> oblivious lg ln (f tokens)) /\
  (forall k f tokens, dget str_eqb (c_directives c) k = Some (D_custom f) -> oblivious lg ln (f tokens)) /\
  (forall m, In m (c_pre_link c ++ c_post_link c) -> oblivious lg ln m).
Definition linker_oblivious (lg ln : bool) (lk : linker) : Prop :=
  (forall a d, oblivious lg ln (lk_resolve lk a d)) /\ oblivious lg ln (lk_link lk).
