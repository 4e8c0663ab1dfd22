(** What a run tells the user: the texts of exceptions and the lines printed by the
    log.  The statements are assembled as in Assembler.v; this file adds the file
    names, the texts and the printed lines, which Assembler.v drops. *)
From Verif Require Import Py Utils Tokenizer State Assembler.
Local Open Scope Z_scope.

(** ** Texts *)

(** One character inside repr(str).  Simplification: as everywhere, texts are ASCII.
    statements.py:14-15 through str(list) *)
Definition repr_chr (q c : ascii) : str :=
  if Ascii.eqb c q || Ascii.eqb c backslash then [backslash; c]
  else if Ascii.eqb c nl then [backslash; "n"%char]
  else if Ascii.eqb c cr then [backslash; "r"%char]
  else if Ascii.eqb c tab then [backslash; "t"%char]
  else if (ord c <? 32) || (ord c =? 127)
  then [backslash; "x"%char; digit_chr (ord c / 16); digit_chr (ord c mod 16)]
  else [c].

(** repr(str): single quotes unless the text has single quotes and no double ones.
    statements.py:14-15 through str(list) *)
Definition py_repr (s : str) : str :=
  let q := if chr_in squote s && negb (chr_in dquote s) then dquote else squote in
  q :: flat_map (repr_chr q) s ++ [q].

(** sep.join(l); statements.py:14-15 through str(list), assembler.py:197, 269 *)
Fixpoint join (sep : str) (l : list str) : str :=
  match l with
  | [] => []
  | [a] => a
  | a :: t => a ++ sep ++ join sep t
  end.

(** str(list) for a list of strings; statements.py:14-15 *)
Definition str_of_list (l : list str) : str := #"[" ++ join #", " (map py_repr l) ++ #"]".

(** statements.py:12-15 Statement.__str__ *)
Definition statement_str (ctx : option str) (line : Z) (tokens : list str) : str :=
  match ctx with
  | Some f => #"at line " ++ str_of_int line ++ #" of " ++ f ++ #": " ++ str_of_list tokens
  | None => #"at line " ++ str_of_int line ++ #": " ++ str_of_list tokens
  end.

(** 'label' in double quotes, as the formats of exceptions.py:34-63 write it. *)
Definition in_quotes (l : str) : str := dquote :: l ++ [dquote].

(** exceptions.py:1-124, linker.py:5-6: the message of an exception raised without a
    context.  Simplification: the classes of CPU modules and platforms, some of which
    share a name and differ in the text, are raised by handlers, directives and passes
    whose texts are a parameter below; they have no text here. *)
Definition message (e : asmexc) : str :=
  match e with
  | InvalidOpCodeArguments => #"invalid arguments for opcode"
  | UnknownInstruction => #"unknown instruction"
  | LabelNotAllowedInMacro => #"label not allowed in macro"
  | InvalidInstruction => #"invalid instruction"
  | NegativeSignNotAllowed => #"negative sign only allowed for decimal numbers"
  | UnknownLabel l => #"unknown label " ++ in_quotes l
  | AlignmentError l => #"wrong alignment for label " ++ in_quotes l
  | NotInBitRange v b None =>
      #"value " ++ str_of_int v ++ #" is not in the " ++ str_of_int b ++ #" bit range"
  | NotInBitRange v b (Some l) =>
      #"label " ++ in_quotes l ++ #" with value " ++ str_of_int v ++ #" is not in the " ++
      str_of_int b ++ #" bit range"
  | InvalidBitRange => #"invalid bit range"
  | OnlyForwardAddressesAllowed l v =>
      #"value " ++ str_of_int v ++ #" of label " ++ in_quotes l ++
      #" is not higher than the start location"
  | UnknownDirective => #"unknown directive"
  | UnsupportedNestedMacro => #"nested macros are not supported"
  | UnsupportedNestedRepeat => #"nested repeats are not supported"
  | NotInMacroRecordingMode => #"not in macro recording mode"
  | NotInRepeatMode => #"not in repeat mode"
  | UnknownRegister => #"unknown cpu register"
  | InvalidRegister => #"invalid cpu register"
  | InvalideImmediateValue => #"invalid immediate value"
  | InvalidArgumentsForDirective => #"invalid arguments for directive"
  | AddressOverlap => #"address overlap"
  | LabelAlreadyDefined => #"label already defined"
  | SectionAlreadyDefined => #"section already defined"
  | SymbolAlreadyExported => #"symbol already exported"
  | InvalidLabel => #"invalid label"
  | InvalidDefine => #"invalid define"
  | LabelNotAllowed => #"label not allowed here"
  | RelocationNotImplemented =>
      #"please subclass the ELF class and implement the 'relocate' method"
  | _ => []
  end.

(** exceptions.py:4-7: the message of an exception raised with a statement *)
Definition message_at (e : asmexc) (w : str) : str := message e ++ #" " ++ w.

(** Which exceptions Label.assemble raises with the statement; statements.py:105-119.
    The others come from parse_integer. *)
Definition label_says (w : str) (e : asmexc) : str :=
  match e with
  | LabelNotAllowedInMacro | LabelAlreadyDefined | InvalidLabel => message_at e w
  | _ => message e
  end.

(** Which exceptions the internal directives raise with the statement;
    assembler.py:172, 181, 510-524, 596-676, 732-827.  AddressOverlap has it in goto and
    upto (615, 631) and not in change_org (480, 493, 506); the others come from
    parse_integer and change_org, which have no statement. *)
Definition directive_says (d : directive) (w : str) (e : asmexc) : str :=
  match e with
  | UnsupportedNestedMacro | NotInMacroRecordingMode | InvalidArgumentsForDirective
  | UnsupportedNestedRepeat | NotInRepeatMode | SectionAlreadyDefined
  | SymbolAlreadyExported | LabelNotAllowed => message_at e w
  | AddressOverlap =>
      match d with D_goto | D_upto => message_at e w | _ => message e end
  | _ => message e
  end.

(** ** Runs that are told about *)

(** The file names of the instructions in the bodies of the macros, by macro and index
    (statements.py:9, macros.py:19).  Assembler.v keeps the bodies without them. *)
Definition tags := list (str * list (option str)).

(** No line of /repo of its own: a result, or the exception and its text (exc.args[0]);
    the texts of builtin exceptions are not modelled. *)
Inductive out (A : Type) := Fine (a : A) | Raised (e : exc) (text : option str).
Arguments Fine {A} a.
Arguments Raised {A} e text.

(** No line of /repo of its own: what a run leaves behind. *)
Record told (A : Type) := Told { to_st : st; to_tags : tags; to_lines : list str; to_out : out A }.
Arguments Told {A} _ _ _ _.
Arguments to_st {A} _.
Arguments to_tags {A} _.
Arguments to_lines {A} _.
Arguments to_out {A} _.

(** No line of /repo of its own: a Python statement that may print. *)
Definition R (A : Type) := st -> tags -> told A.

(** No line of /repo of its own: a value. *)
Definition rret {A} (a : A) : R A := fun s g => Told s g [] (Fine a).
(** No line of /repo of its own: the raise statement. *)
Definition rraise {A} (e : asmexc) (text : str) : R A :=
  fun s g => Told s g [] (Raised (AExc e) (Some text)).
(** No line of /repo of its own: sequencing of statements. *)
Definition rthen {A B} (m : R A) (k : A -> R B) : R B :=
  fun s g =>
    let r := m s g in
    match to_out r with
    | Fine a =>
        let r' := k a (to_st r) (to_tags r) in
        Told (to_st r') (to_tags r') (to_lines r ++ to_lines r') (to_out r')
    | Raised e t => Told (to_st r) (to_tags r) (to_lines r) (Raised e t)
    end.
(** No line of /repo of its own: code that prints nothing and whose
    AssemblerExceptions have the texts [say]. *)
Definition quietly {A} (say : asmexc -> str) (m : M A) : R A :=
  fun s g =>
    match m s with
    | (s', Ok a) => Told s' g [] (Fine a)
    | (s', Err (AExc e)) => Told s' g [] (Raised (AExc e) (Some (say e)))
    | (s', Err (PExc e)) => Told s' g [] (Raised (PExc e) None)
    end.
(** print(); assembler.py:194-197 *)
Definition print (line : str) : R unit := fun s g => Told s g [line] (Fine tt).

Notation "'let+' x ':=' m 'in' k" := (rthen m (fun x => k))
  (at level 200, x pattern, m at level 100, k at level 200, right associativity).

(** tokenizer.py:5-10, 91, 141-144: the line of the misplaced colon *)
Fixpoint fail_line (t : tok) (s : str) : Z :=
  match s with
  | [] => t_line t
  | c :: s' =>
      match tok_step t c with
      | Ok t' => fail_line (bump_line t' c) s'
      | Err _ => t_line t
      end
  end.

(** assembler.py:185-186: the statements, or the text of tokenizer.InvalidLabel *)
Definition r_tokenize (code : str) : R (list stmt) :=
  fun s g =>
    match tokenize code with
    | Ok ss => Told s g [] (Fine ss)
    | Err e => Told s g [] (Raised e (Some (#"invalid label at line " ++
                 str_of_int (fail_line tok_init (code ++ [nl])))))
    end.

(** '0x{0:02x}' ; assembler.py:197 *)
Definition hex_byte (v : Z) : str :=
  #"0x" ++ repeat "0"%char (2 - length (nat_digits 16 v)) ++ nat_digits 16 v.

(** assembler.py:191-197: what the log prints about a statement, given its str(), the
    length of the output before it and the output after it *)
Definition log_line (w : str) (before : Z) (after : bytes) : str :=
  if zlen after =? before then #"not assembled " ++ w
  else #"assembled " ++ w ++ #" -> (" ++
       join #"," (map hex_byte (skipn (Z.to_nat before) after)) ++
       #") at 0x" ++ nat_digits 16 before.

Section Told.
  Context (c : cfg).
  (** The text with which a handler or an extra directive raises: the file name, line
      and tokens of its statement are known to it.  cpu/*.py, platforms/*.py *)
  Context (said : option str -> Z -> list str -> asmexc -> str).
  Let p := c_p c.

  (** statements.py:105-119; the value is the token list afterwards *)
  Definition r_label (ctx : option str) (line : Z) (tokens : list str) : R (list str) :=
    let+ _ := quietly (label_says (statement_str ctx line tokens)) (label_assemble c tokens) in
    rret tokens.

  (** assembler.py:732-737; [assemble] is self.assemble with the file name as context *)
  Definition r_include (assemble : option str -> str -> R unit) (w : str) (tokens : list str)
    : R unit :=
    let+ found := quietly (directive_says D_include w)
       (if negb (len_in tokens [2]%nat) then araise InvalidArgumentsForDirective else
        let! t1 := tok_at tokens 1 in
        let! name := lift (stringify t1) in
        let! code := open_file (file_text (c_env c)) name in
        ret (name, code)) in
    assemble (Some (fst found)) (snd found).

  (** assembler.py:170-178: a new macro has no instructions yet *)
  Definition new_tags (tokens : list str) : R unit :=
    fun s g =>
      let name := nth 1 tokens [] in
      Told s (dset str_eqb g (if case_sensitive p then name else upper name) []) [] (Fine tt).

  (** The callables in self.directives; assembler.py:111-141, statements.py:131 *)
  Definition r_run_directive (assemble : option str -> str -> R unit) (d : directive)
      (ctx : option str) (line : Z) (tokens : list str) : R unit :=
    let w := statement_str ctx line tokens in
    match d with
    | D_include => r_include assemble w tokens
    | D_macro =>
        let+ _ := quietly (directive_says D_macro w) (macro_start p tokens) in new_tags tokens
    | D_custom f => quietly (said ctx line tokens) (f tokens)
    | _ => quietly (directive_says d w) (run_directive c (fun _ => ret tt) d tokens)
    end.

  (** statements.py:122-131 Directive.assemble *)
  Definition r_directive (assemble : option str -> str -> R unit) (ctx : option str) (line : Z)
      (tokens : list str) : R (list str) :=
    fun s g =>
      (let tokens := substitute_with_dict tokens (defines s) 1 in
       let+ t0 := quietly message (tok_at tokens 0) in
       let key := skipn 1 t0 in
       let key := if case_sensitive p then key else upper key in
       match dget str_eqb (c_directives c) key with
       | None => rraise UnknownDirective (message_at UnknownDirective (statement_str ctx line tokens))
       | Some d => let+ _ := r_run_directive assemble d ctx line tokens in rret tokens
       end) s g.

  (** statements.py:42-54: the statement is added to the text of whatever a handler
      raises; other exceptions become InvalidInstruction(self) *)
  Definition r_call_handler (f : list str -> M (option bytes)) (ctx : option str) (line : Z)
      (tokens : list str) : R bytes :=
    fun s g =>
      let w := statement_str ctx line tokens in
      match f tokens s with
      | (s', Ok (Some blob)) => Told s' g [] (Fine blob)
      | (s', Ok None) =>
          Told s' g [] (Raised (AExc InvalidInstruction) (Some (message InvalidInstruction ++ #" " ++ w)))
      | (s', Err (AExc e)) =>
          Told s' g [] (Raised (AExc e) (Some (said ctx line tokens e ++ #" " ++ w)))
      | (s', Err (PExc _)) =>
          Told s' g [] (Raised (AExc InvalidInstruction) (Some (message_at InvalidInstruction w)))
      end.

  (** statements.py:38-59: dispatch on the opcode table *)
  Definition r_opcode (key : str) (ctx : option str) (line : Z) (tokens : list str) : R unit :=
    let w := statement_str ctx line tokens in
    match dget str_eqb (c_instructions c) key with
    | None => rraise UnknownInstruction (message_at UnknownInstruction w)
    | Some (OFun f) =>
        let+ blob := r_call_handler f ctx line tokens in
        quietly message (append_assembled_bytes blob)
    | Some (OStatic blob) =>
        if negb (len_in tokens [1]%nat)
        then rraise InvalidOpCodeArguments (message_at InvalidOpCodeArguments w)
        else quietly message (append_assembled_bytes blob)
    end.

  (** macros.py:27-38: the instructions of the body keep their own file and line *)
  Fixpoint r_macro_loop (run : option str -> Z -> place -> list str -> R (list str)) (key : str)
      (params args : list str) (n i : nat) : R unit :=
    match n with
    | O => rret tt
    | S n' => fun s g =>
        match dget str_eqb (macros s) key with
        | None => Told s g [] (Fine tt) (* unreachable: macros are never removed *)
        | Some m =>
            match nth_error (m_body m) i with
            | None => Told s g [] (Fine tt) (* unreachable: bodies never shrink *)
            | Some instr =>
                let ctx := match dget str_eqb g key with
                           | Some l => nth i l None | None => None end in
                let original := s_tokens instr in
                (let+ d := quietly message (lift (macro_dict params args [])) in
                 let tokens := substitute_with_dict original d 0 in
                 let+ _ := quietly message (store_tokens (InMacro key i) tokens) in
                 let+ _ := run ctx (s_line instr) (InMacro key i) tokens in
                 let+ _ := quietly message (store_tokens (InMacro key i) original) in
                 r_macro_loop run key params args n' (S i)) s g
            end
        end
    end.

  (** statements.py:18-24, macros.py:19: an instruction joins the macro being recorded *)
  Definition r_record (key : str) (ctx : option str) (line : Z) (tokens : list str) : R unit :=
    fun s g =>
      match dget str_eqb (macros s) key with
      | Some m =>
          Told (set_macros s (dset str_eqb (macros s) key
                  (MkMacro (m_args m) (m_body m ++ [Stmt KInstruction tokens line]))))
               (dset str_eqb g key
                  (match dget str_eqb g key with Some l => l | None => [] end ++ [ctx]))
               [] (Fine tt)
      | None => Told s g [] (Fine tt) (* unreachable: the recorded macro is registered *)
      end.

  (** statements.py:18-59 Instruction.assemble; the value is the token list afterwards *)
  Fixpoint r_instruction (fuel : nat) (ctx : option str) (line : Z) (pl : place)
      (tokens : list str) : R (list str) :=
    fun s g =>
      match macro_recording s with
      | Some key => (let+ _ := r_record key ctx line tokens in rret tokens) s g
      | None =>
          let tokens := substitute_with_dict tokens (defines s) 0 in
          (let+ _ := quietly message (store_tokens pl tokens) in
           let+ t0 := quietly message (tok_at tokens 0) in
           let key := if case_sensitive p then t0 else upper t0 in
           match dget str_eqb (macros s) key with
           | Some m =>
               match fuel with
               | O => quietly message (praise RecursionError)
               | S f =>
                   let+ _ := r_macro_loop (r_instruction f) key (m_args m) (skipn 1 tokens)
                               (length (m_body m)) 0 in
                   rret tokens
               end
           | None => let+ _ := r_opcode key ctx line tokens in rret tokens
           end) s g
      end.

  (** statement.assemble(self) at assembler.py:190 *)
  Definition r_statement (fuel : nat) (assemble : option str -> str -> R unit)
      (ctx : option str) (x : stmt) : R (list str) :=
    match s_kind x with
    | KLabel => r_label ctx (s_line x) (s_tokens x)
    | KDirective => r_directive assemble ctx (s_line x) (s_tokens x)
    | KInstruction => r_instruction fuel ctx (s_line x) Fresh (s_tokens x)
    end.

  (** assembler.py:188-197: the loop over the statements with the log *)
  Fixpoint r_statements (fuel : nat) (assemble : option str -> str -> R unit)
      (ctx : option str) (ss : list stmt) : R unit :=
    match ss with
    | [] => rret tt
    | x :: t => fun s g =>
        (let+ tokens := r_statement fuel assemble ctx x in
         let+ _ := (fun s' g' =>
            if log s'
            then print (log_line (statement_str ctx (s_line x) tokens)
                                 (zlen (assembled s)) (assembled s')) s' g'
            else Told s' g' [] (Fine tt)) in
         r_statements fuel assemble ctx t) s g
    end.

  (** assembler.py:184-210 assemble(code, context) *)
  Fixpoint r_assemble (fuel : nat) (ctx : option str) (code : str) : R unit :=
    let+ ss := r_tokenize code in
    let+ _ := r_statements fuel
       (match fuel with
        | O => fun _ _ => quietly message (praise RecursionError)
        | S f => r_assemble f
        end) ctx ss in
    quietly message (assemble_tail c).

  (** assembler.py:212-214 assemble_file: the file name is the context *)
  Definition r_assemble_file (fuel : nat) (name : str) : R unit :=
    let+ code := quietly message (open_file (file_text (c_env c)) name) in
    r_assemble fuel (Some name) code.
End Told.
