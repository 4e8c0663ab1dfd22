(** Model of necroassembler/tokenizer.py *)
From Verif Require Import Py.
Local Open Scope Z_scope.

(** The three Statement classes, statements.py:18,105,122. *)
Inductive skind := KInstruction | KLabel | KDirective.

(** statements.py:6-15 Statement.  Simplification: [context] (the file name
    shown in messages) is dropped. *)
Record stmt := Stmt { s_kind : skind; s_tokens : list str; s_line : Z }.

(** The state methods of tokenizer.py:33-132. *)
Inductive tstate := TToken | TString | TEscString | TChar | TEscChar | TComment.

(** tokenizer.py:16-23 Tokenizer attributes. *)
Record tok := Tok {
  t_state : tstate;
  t_cur : str;
  t_tokens : list str;
  t_stmts : list stmt;
  t_line : Z }.

(** tokenizer.py:16-23 __init__ *)
Definition tok_init : tok := Tok TToken [] [] [] 1.

(** Characters tested in tokenizer.py:69, 113, 131, 143. *)
Definition nl : ascii := ascii_of_nat 10.
(** Characters tested in tokenizer.py:69, 113, 131. *)
Definition cr : ascii := ascii_of_nat 13.
(** Characters tested in tokenizer.py:113. *)
Definition tab : ascii := ascii_of_nat 9.
(** Characters tested in tokenizer.py:37, 122. *)
Definition dquote : ascii := ascii_of_nat 34.
(** Characters tested in tokenizer.py:57, 125. *)
Definition squote : ascii := ascii_of_nat 39.
(** Characters tested in tokenizer.py:34, 54. *)
Definition backslash : ascii := ascii_of_nat 92.

(** [if self.current_token: self.tokens.append(wrap(self.current_token))]
    tokenizer.py:38-39, 58-59, 66-67, 84-85, 92-93, 101-102, 107-108 *)
Definition flush (wrap : str -> str) (cur : str) (tokens : list str) : list str :=
  match cur with [] => tokens | _ => tokens ++ [wrap cur] end.

(** The wrapping in quotes, tokenizer.py:39, 59. *)
Definition quoted (q : ascii) (s : str) : str := q :: s ++ [q].

(** tokenizer.py:33-47 and 49-63: strings and chars *)
Definition state_quoted (q : ascii) (here esc : tstate) (t : tok) (c : ascii) : tok :=
  if Ascii.eqb c backslash then Tok esc (t_cur t) (t_tokens t) (t_stmts t) (t_line t)
  else if Ascii.eqb c q then
    Tok TToken [] (flush (quoted q) (t_cur t) (t_tokens t)) (t_stmts t) (t_line t)
  else Tok here (t_cur t ++ [c]) (t_tokens t) (t_stmts t) (t_line t).

(** tokenizer.py:70-77: the statement made of the pending tokens *)
Definition make_statement (tokens : list str) (line : Z) : list stmt :=
  match tokens with
  | [] => []
  | first :: _ =>
      [Stmt (if starts_with #"." first then KDirective else KInstruction) tokens line]
  end.

(** tokenizer.py:65-81 _token_spaces *)
Definition token_spaces (t : tok) (c : ascii) : tok :=
  let tokens := flush id (t_cur t) (t_tokens t) in
  if chr_in c [nl; cr; ";"%char] then
    Tok (if Ascii.eqb c ";" then TComment else TToken) [] []
        (t_stmts t ++ make_statement tokens (t_line t)) (t_line t)
  else Tok (t_state t) [] tokens (t_stmts t) (t_line t).

(** tokenizer.py:83-87 _token_brackets *)
Definition token_brackets (t : tok) (c : ascii) : tok :=
  Tok (t_state t) [] (flush id (t_cur t) (t_tokens t) ++ [[c]]) (t_stmts t) (t_line t).

(** tokenizer.py:89-98 _token_colon *)
Definition token_colon (t : tok) : res tok :=
  match t_tokens t with
  | _ :: _ => Err (PExc TokenizerInvalidLabel)
  | [] =>
      Ok (Tok TToken [] []
              (t_stmts t ++ [Stmt KLabel (flush id (t_cur t) []) (t_line t)]) (t_line t))
  end.

(** tokenizer.py:112-128 _state_token (with 100-110 _token_string/_token_char) *)
Definition state_token (t : tok) (c : ascii) : res tok :=
  if chr_in c [" "%char; nl; cr; tab; ","%char; ";"%char] then Ok (token_spaces t c)
  else if chr_in c ["("%char; ")"%char; "["%char; "]"%char; "{"%char; "}"%char]
  then Ok (token_brackets t c)
  else if Ascii.eqb c ":" then token_colon t
  else if Ascii.eqb c dquote then
    Ok (Tok TString [] (flush id (t_cur t) (t_tokens t)) (t_stmts t) (t_line t))
  else if Ascii.eqb c squote then
    Ok (Tok TChar [] (flush id (t_cur t) (t_tokens t)) (t_stmts t) (t_line t))
  else Ok (Tok (t_state t) (t_cur t ++ [c]) (t_tokens t) (t_stmts t) (t_line t)).

(** tokenizer.py:25-31 step, dispatching on the current state *)
Definition tok_step (t : tok) (c : ascii) : res tok :=
  match t_state t with
  | TToken => state_token t c
  | TString => Ok (state_quoted dquote TString TEscString t c)
  | TChar => Ok (state_quoted squote TChar TEscChar t c)
  | TEscString => Ok (Tok TString (t_cur t ++ [c]) (t_tokens t) (t_stmts t) (t_line t))
  | TEscChar => Ok (Tok TChar (t_cur t ++ [c]) (t_tokens t) (t_stmts t) (t_line t))
  | TComment =>
      Ok (if chr_in c [nl; cr] then Tok TToken (t_cur t) (t_tokens t) (t_stmts t) (t_line t)
          else t)
  end.

(** tokenizer.py:143-144: the line counter *)
Definition bump_line (t : tok) (c : ascii) : tok :=
  if Ascii.eqb c nl
  then Tok (t_state t) (t_cur t) (t_tokens t) (t_stmts t) (t_line t + 1) else t.

(** tokenizer.py:141-144: the loop of parse *)
Fixpoint tok_run (t : tok) (s : str) : res tok :=
  match s with
  | [] => Ok t
  | c :: s' => let? t' := tok_step t c in tok_run (bump_line t' c) s'
  end.

(** tokenizer.py:134-144 parse on a fresh tokenizer, as assembler.py:185-188
    uses it: the statements of a text. *)
Definition tokenize (code : str) : res (list stmt) :=
  let? t := tok_run tok_init (code ++ [nl]) in Ok (t_stmts t).
