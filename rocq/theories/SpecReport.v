(** Vocabulary for what a run tells its user. *)
From Verif Require Import Py Tokenizer State Assembler SpecParse Report SpecExec.
Local Open Scope Z_scope.

(** Plug-ins leave the macros alone. *)
Definition macros_alone (s s' : st) : Prop :=
  macros s' = macros s /\ macro_recording s' = macro_recording s.

(** "at line 3 of game.s: ['LDA', '#1']" *)
Definition place_text (f : option str) (line : Z) (tokens : list str) : str :=
  #"at line " ++ str_of_int line ++ (match f with Some n => #" of " ++ n | None => [] end) ++
  #": " ++ str_of_list tokens.

(** No line breaks and no control characters. *)
Definition visible (c : ascii) : Prop := 32 <= ord c /\ ord c <> 127.

(** Errors about a number or an address in the operand of a directive. *)
Definition placeless (e : asmexc) : Prop :=
  match e with
  | NotInBitRange _ _ None | NegativeSignNotAllowed | UnknownLabel _ | AddressOverlap => True
  | _ => False
  end.

(** A text that says what went wrong and, but for placeless errors, where: at one of the
    lines L.  Handlers and extra directives choose their own words. *)
Inductive explained (c : cfg) (said : option str -> Z -> list str -> asmexc -> str)
    (L : option str -> Z -> Prop) : asmexc -> str -> Prop :=
| ex_framework e f line tokens : L f line ->
    explained c said L e (message e ++ #" " ++ place_text f line tokens)
| ex_handler e f line tokens : L f line ->
    explained c said L e (said f line tokens e ++ #" " ++ place_text f line tokens)
| ex_placeless e : placeless e -> explained c said L e (message e)
| ex_extra e f line tokens k d : L f line -> dget str_eqb (c_directives c) k = Some (D_custom d) ->
    explained c said L e (said f line tokens e).

(** The lines of a program: its own statements and those of the files it may include. *)
Inductive source_line (c : cfg) (ctx : option str) (code : str) : option str -> Z -> Prop :=
| sl_main ss x : tokenize code = Ok ss -> In x ss -> source_line c ctx code ctx (s_line x)
| sl_file f text ss x : file_text (c_env c) f = Some text -> tokenize text = Ok ss -> In x ss ->
    source_line c ctx code (Some f) (s_line x).

(** The lines of the bodies of the macros. *)
Definition body_line (s : st) (g : tags) (f : option str) (line : Z) : Prop :=
  exists key m l i x, dget str_eqb (macros s) key = Some m /\ dget str_eqb g key = Some l /\
    nth_error (m_body m) i = Some x /\ nth_error l i = Some f /\ s_line x = line.

(** Every instruction in the body of a macro has its file and comes from one of the
    lines L. *)
Definition known_bodies (L : option str -> Z -> Prop) (s : st) (g : tags) : Prop :=
  forall key m, dget str_eqb (macros s) key = Some m ->
    exists l, dget str_eqb g key = Some l /\ Forall2 (fun f x => L f (s_line x)) l (m_body m).

(** ** The log *)

Definition log_alone (s s' : st) : Prop := log s' = log s.
Definition only_appends (s s' : st) : Prop := extends (assembled s) (assembled s').
Definition sets_log (d : directive) (n : nat) : Prop := d = D_log.
Definition noisy (d : directive) (n : nat) : Prop := d = D_log \/ d = D_include.

(** Texts such as "0x0a", one for each byte. *)
Definition hex_texts (bs : bytes) (ts : list str) : Prop :=
  Forall2 (fun v t => exists ds, t = #"0x" ++ ds /\ length ds = 2%nat /\ numeral 16 ds v) bs ts.

(** The line about a statement at the place w that added bs at the offset n. *)
Inductive log_entry (w : str) (n : Z) : bytes -> str -> Prop :=
| le_none : log_entry w n [] (#"not assembled " ++ w)
| le_some bs ts off : bs <> [] -> hex_texts bs ts -> numeral 16 off n ->
    log_entry w n bs (#"assembled " ++ w ++ #" -> (" ++ join #"," ts ++ #") at 0x" ++ off).

(** The tokens of the statement, after the defines of the state s. *)
Definition shown (s : st) (x : stmt) (t : list str) : Prop :=
  match s_kind x with
  | KLabel => t = s_tokens x
  | KDirective => exists t0 ops ops', s_tokens x = t0 :: ops /\ t = t0 :: ops' /\ reads s ops ops'
  | KInstruction => (macro_recording s <> None /\ t = s_tokens x) \/
                    (macro_recording s = None /\ reads s (s_tokens x) t)
  end.

(** One line for each statement, in order. *)
Inductive logged (c : cfg) (fuel : nat) (ctx : option str) : st -> list stmt -> st -> list str -> Prop :=
| lg_nil s : logged c fuel ctx s [] s []
| lg_cons s x xs s1 s2 t bs line ls :
    exec c fuel [x] s = (s1, Ok tt) -> assembled s1 = assembled s ++ bs -> shown s x t ->
    log_entry (place_text ctx (s_line x) t) (zlen (assembled s)) bs line ->
    logged c fuel ctx s1 xs s2 ls -> logged c fuel ctx s (x :: xs) s2 (line :: ls).
