(** Independent grammar of source text: what a text is made of and which
    statements it denotes.  From the model only the type of statements is used. *)
From Verif Require Import Py Tokenizer.
Local Open Scope Z_scope.

Definition newline : ascii := ascii_of_nat 10.
Definition creturn : ascii := ascii_of_nat 13.
Definition is_sep (c : ascii) : Prop := In c [" "%char; ascii_of_nat 9; ","%char].
Definition is_bracket (c : ascii) : Prop :=
  In c ["("%char; ")"%char; "["%char; "]"%char; "{"%char; "}"%char].
Definition is_quote (c : ascii) : Prop := In c [ascii_of_nat 34; ascii_of_nat 39].
(** Characters of a bare word: everything else. *)
Definition is_word_char (c : ascii) : Prop :=
  ~ is_sep c /\ ~ is_bracket c /\ ~ is_quote c /\
  c <> newline /\ c <> creturn /\ c <> ";"%char /\ c <> ":"%char.

(** [raw q text r]: r is a way to write text between quotes q; quotes and
    backslashes must be escaped by a backslash, other characters may be. *)
Inductive raw (q : ascii) : str -> str -> Prop :=
| raw_nil : raw q [] []
| raw_plain c t r : c <> q -> c <> "\"%char -> raw q t r -> raw q (c :: t) (c :: r)
| raw_escape c t r : raw q t r -> raw q (c :: t) ("\"%char :: c :: r).

(** The pieces a line is made of. *)
Inductive piece :=
| PSep (c : ascii)
| PWord (w : str)
| PBracket (c : ascii)
| PQuote (q : ascii) (text rw : str).

Definition piece_ok (p : piece) : Prop :=
  match p with
  | PSep c => is_sep c
  | PWord w => w <> [] /\ Forall is_word_char w
  | PBracket c => is_bracket c
  | PQuote q text rw => is_quote q /\ raw q text rw
  end.

Definition piece_text (p : piece) : str :=
  match p with
  | PSep c => [c] | PWord w => w | PBracket c => [c] | PQuote q _ rw => q :: rw ++ [q]
  end.

(** Tokens: words, single brackets, quoted texts with their quotes and without
    escapes; an empty quoted text gives no token. *)
Definition piece_tokens (p : piece) : list str :=
  match p with
  | PSep _ => []
  | PWord w => [w]
  | PBracket c => [[c]]
  | PQuote _ [] _ => []
  | PQuote q text _ => [q :: text ++ [q]]
  end.

Definition is_word (p : piece) : bool := match p with PWord _ => true | _ => false end.

(** Two words must be separated by something. *)
Fixpoint separated (ps : list piece) : Prop :=
  match ps with
  | a :: (b :: _) as t => (is_word a && is_word b = false) /\ separated t
  | _ => True
  end.

Definition pieces_ok (ps : list piece) : Prop := Forall piece_ok ps /\ separated ps.
Definition pieces_text (ps : list piece) : str := flat_map piece_text ps.
Definition pieces_tokens (ps : list piece) : list str := flat_map piece_tokens ps.

Fixpoint newlines (s : str) : Z :=
  match s with [] => 0 | c :: t => (if Ascii.eqb c newline then 1 else 0) + newlines t end.

(** Comments run from a semicolon to the end of the line. *)
Definition comment_text (s : str) : Prop :=
  Forall (fun c => c <> newline /\ c <> creturn) s.
Inductive line_end : str -> Prop :=
| end_nl : line_end [newline]
| end_cr : line_end [creturn]
| end_comment cm c : comment_text cm -> c = newline \/ c = creturn ->
    line_end (";"%char :: cm ++ [c]).
Inductive file_end : str -> Prop :=
| file_end_plain : file_end []
| file_end_comment cm : comment_text cm -> file_end (";"%char :: cm).

(** The statement denoted by the tokens of a line, none for an empty line. *)
Definition line_statement (tokens : list str) (line : Z) : list stmt :=
  match tokens with
  | [] => []
  | first :: _ =>
      [Stmt (match first with
             | c :: _ => if Ascii.eqb c "." then KDirective else KInstruction
             | [] => KInstruction end) tokens line]
  end.

(** [lines n ss text m]: text is a sequence of complete lines and labels, starting
    at line number n and ending at line number m, denoting the statements ss. *)
Inductive lines (n : Z) : list stmt -> str -> Z -> Prop :=
| lines_nil : lines n [] [] n
| lines_line ps e ss rest m :
    pieces_ok ps -> line_end e ->
    lines (n + newlines (pieces_text ps) + newlines e) ss rest m ->
    lines n (line_statement (pieces_tokens ps) (n + newlines (pieces_text ps)) ++ ss)
            (pieces_text ps ++ e ++ rest) m
| lines_label ps w ss rest m :
    pieces_ok ps -> pieces_tokens ps = [] -> Forall is_word_char w ->
    lines n ss rest m ->
    lines n (Stmt KLabel (match w with [] => [] | _ => [w] end) n :: ss)
            (pieces_text ps ++ w ++ ":"%char :: rest) m.

(** A source text: complete lines, then a last line that may lack its end. *)
Inductive source (n : Z) : list stmt -> str -> Prop :=
| source_intro ss pre m ps e :
    lines n ss pre m -> pieces_ok ps -> file_end e ->
    source n (ss ++ line_statement (pieces_tokens ps) (m + newlines (pieces_text ps)))
             (pre ++ pieces_text ps ++ e).

(** A misplaced colon: complete lines, then at least one token on the line before
    the word (possibly empty) that the colon follows. *)
Definition ends_in_word (ps : list piece) : Prop := exists qs w, ps = qs ++ [PWord w].
Definition misplaced_colon (text : str) : Prop :=
  exists ss pre m ps w rest,
    lines 1 ss pre m /\ pieces_ok ps /\ ~ ends_in_word ps /\ pieces_tokens ps <> [] /\
    Forall is_word_char w /\ text = pre ++ pieces_text ps ++ w ++ ":"%char :: rest.

(** A text whose last quoted literal is never closed. *)
Definition unterminated (text : str) : Prop :=
  exists ss pre m ps q r t e,
    lines 1 ss pre m /\ pieces_ok ps /\ is_quote q /\ raw q t r /\ (e = [] \/ e = ["\"%char]) /\
    text = pre ++ pieces_text ps ++ q :: r ++ e.

(** Statements without their line numbers, and shifting of line numbers. *)
Definition content (s : stmt) : skind * list str := (s_kind s, s_tokens s).
Definition shift_lines (k : Z) (ss : list stmt) : list stmt :=
  map (fun s => Stmt (s_kind s) (s_tokens s) (s_line s + k)) ss.

(** Words with separator runs: what comes before, words each followed by a
    non-empty run, and the last word with an optional run after it. *)
Definition sep_run (s : str) : Prop := Forall is_sep s.
Definition plain_word (w : str) : Prop := w <> [] /\ Forall is_word_char w.
Definition spaced_ok (lead : str) (l : list (str * str)) (last trail : str) : Prop :=
  sep_run lead /\ sep_run trail /\ plain_word last /\
  Forall (fun ws => plain_word (fst ws) /\ sep_run (snd ws) /\ snd ws <> []) l.
Definition spaced_text (lead : str) (l : list (str * str)) (last trail : str) : str :=
  lead ++ flat_map (fun ws => fst ws ++ snd ws) l ++ last ++ trail.
Definition spaced_tokens (l : list (str * str)) (last : str) : list str := map fst l ++ [last].

(** The way to write a text between quotes that only escapes what must be. *)
Definition escape (q : ascii) (text : str) : str :=
  flat_map (fun c => if Ascii.eqb c q || Ascii.eqb c "\" then ["\"%char; c] else [c]) text.
