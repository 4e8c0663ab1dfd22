(** Model of necroassembler/assembler.py, statements.py and macros.py, with the
    default linker of linker.py:9-14. *)
From Verif Require Import Py Utils Tokenizer State.
Local Open Scope Z_scope.

(** assembler.py:56-69 class attributes that configure an assembler. *)
Record pcfg := PCfg {
  hex_prefixes : list str; hex_suffixes : list str;
  bin_prefixes : list str; bin_suffixes : list str;
  oct_prefixes : list str; oct_suffixes : list str;
  dec_prefixes : list str; dec_suffixes : list str;
  case_sensitive : bool;
  fill_value : Z;
  big_endian : bool }.

(** ** Integer and formula parsing *)

(** assembler.py:425, 845: the operators *)
Definition math_ops : list ascii :=
  ["+"%char; "-"%char; "*"%char; "/"%char; "&"%char; "|"%char].
(** assembler.py:425, 845 *)
Definition is_op (c : ascii) : bool := chr_in c math_ops.
(** assembler.py:836 *)
Definition is_ltgt (c : ascii) : bool := chr_in c ["<"%char; ">"%char].

(** assembler.py:835-839 *)
Fixpoint pre_formula_of (s : str) : str :=
  match s with c :: t => if is_ltgt c then c :: pre_formula_of t else [] | [] => [] end.

(** assembler.py:841-853 *)
Fixpoint post_formula_loop (in_math : bool) (valid_chars : Z) (s : str) : str :=
  match s with
  | [] => []
  | c :: t =>
      if in_math then c :: post_formula_loop true valid_chars t
      else if is_op c then
        if valid_chars <? 1 then [] else c :: post_formula_loop true valid_chars t
      else post_formula_loop false (valid_chars + 1) t
  end.

(** assembler.py:832-858 _get_math_formula: (token, pre_formula, post_formula) *)
Definition get_math_formula (token : str) : str * str * str :=
  let pre := pre_formula_of token in
  let rest := skipn (length pre) token in
  let post := post_formula_loop false 0 rest in
  match post with
  | [] => (rest, pre, post)
  | _ => (firstn (length token - length post - length pre) rest, pre, post)
  end.

(** assembler.py:404-419: the leading < and > operators.
    State: value, shifted_value, low_counter, has_shifted_value. *)
Fixpoint pre_loop (pre : str) (value shifted low : Z) (has : bool) : Z :=
  match pre with
  | [] => if has then shifted else value
  | op :: t =>
      if Ascii.eqb op ">" then pre_loop t (Z.shiftr value 8) shifted low has
      else if Ascii.eqb op "<" then
        pre_loop t value
          (Z.lor shifted (Z.shiftl (Z.land (Z.shiftr value (8 * low)) 0xFF) (8 * low)))
          (low + 1) true
      else pre_loop t value shifted low has
  end.
(** assembler.py:405-419: the loop from its start values *)
Definition apply_pre (pre : str) (value : Z) : Z := pre_loop pre value 0 0 false.

(** assembler.py:421-434: split of the post formula in (command, argument) *)
Fixpoint split_ops (cmd : option ascii) (arg : str) (s : str) : list (ascii * str) :=
  match s with
  | [] => match cmd with Some c => [(c, arg)] | None => [] end
  | c :: t =>
      if is_op c then
        match cmd with
        | Some c0 => (c0, arg) :: split_ops (Some c) [] t
        | None => split_ops (Some c) [] t
        end
      else split_ops cmd (arg ++ [c]) t
  end.

(** assembler.py:444-455 *)
Definition apply_command (cmd : ascii) (value arg : Z) : res Z :=
  if Ascii.eqb cmd "+" then Ok (value + arg)
  else if Ascii.eqb cmd "-" then Ok (value - arg)
  else if Ascii.eqb cmd "*" then Ok (value * arg)
  else if Ascii.eqb cmd "/" then
    if arg =? 0 then Err (PExc ZeroDivisionError) else Ok (value / arg)
  else if Ascii.eqb cmd "&" then Ok (Z.land value arg)
  else if Ascii.eqb cmd "|" then Ok (Z.lor value arg)
  else Ok value.

Section Parse.
  Context (p : pcfg) (lbls : list (str * label)).

  (** assembler.py:315-329 *)
  Fixpoint try_prefixes (prefixes : list str) (base : Z) (dec : bool) (token : str)
      (otherwise : res (option Z * bool)) : res (option Z * bool) :=
    match prefixes with
    | [] => otherwise
    | pre :: t =>
        if starts_with pre token then
          match py_int base (skipn (length pre) token) with
          | Some v => Ok (Some v, dec)
          | None => Err (PExc ValueError)
          end
        else try_prefixes t base dec token otherwise
    end.

  (** token[:-n] for n = len(suffix); assembler.py:333-349 *)
  Definition slice_suffix (n : nat) (token : str) : str :=
    match n with O => [] | _ => drop_last n token end.

  (** assembler.py:331-349 *)
  Fixpoint try_suffixes (suffixes : list str) (base : Z) (dec : bool) (token : str)
      (otherwise : res (option Z * bool)) : res (option Z * bool) :=
    match suffixes with
    | [] => otherwise
    | suf :: t =>
        if ends_with suf token && isdigit (slice_suffix (length suf) token) then
          match py_int base (slice_suffix (length suf) token) with
          | Some v => Ok (Some v, dec)
          | None => Err (PExc ValueError)
          end
        else try_suffixes t base dec token otherwise
    end.

  (** assembler.py:310-354 _internal_parse_integer, after the char literal *)
  Definition parse_number (token : str) : res (option Z * bool) :=
    try_prefixes (hex_prefixes p) 16 false token
   (try_prefixes (bin_prefixes p) 2 false token
   (try_prefixes (oct_prefixes p) 8 false token
   (try_prefixes (dec_prefixes p) 10 true token
   (try_suffixes (hex_suffixes p) 16 false token
   (try_suffixes (bin_suffixes p) 2 false token
   (try_suffixes (oct_suffixes p) 8 false token
   (try_suffixes (dec_suffixes p) 10 true token
   (match py_int 10 token with
    | Some v => Ok (Some v, true)
    | None => Ok (None, false)
    end)))))))).

  (** assembler.py:310-354 _internal_parse_integer *)
  Definition internal_parse_integer (token : str) : res (option Z * bool) :=
    match token with
    | [] => Err (PExc IndexError)
    | c0 :: _ =>
        if Ascii.eqb c0 squote then
          match nth_error token 2 with
          | None => Err (PExc IndexError)
          | Some c2 =>
              if Ascii.eqb c2 squote then
                match nth_error token 1 with
                | Some c1 => Ok (Some (ord c1), false)
                | None => Err (PExc IndexError)
                end
              else parse_number token
          end
        else parse_number token
    end.

  (** assembler.py:363-381: range checks of parse_integer *)
  Definition check_integer (value : Z) (decimal : bool) (number_of_bits : Z) (signed : bool)
    : res Z :=
    if negb decimal && (value <? 0) then Err (AExc NegativeSignNotAllowed) else
    if decimal && signed then
      if negb (in_bit_range_decimal value number_of_bits true)
      then Err (AExc (NotInBitRange value number_of_bits None)) else Ok value
    else
      let? value :=
        (if decimal && (value <? 0) then
           let max_value := 2 ^ number_of_bits in
           let value := value + max_value in
           if value <? max_value / 2
           then Err (AExc (NotInBitRange value number_of_bits None)) else Ok value
         else Ok value) in
      if negb (in_bit_range value number_of_bits)
      then Err (AExc (NotInBitRange value number_of_bits None)) else Ok value.

  (** assembler.py:356-381 parse_integer; [amf] is apply_math_formula *)
  Definition parse_integer_with (amf : str -> str -> Z -> res Z)
      (token : str) (number_of_bits : Z) (signed : bool) : res (option Z) :=
    let '(tok, pre, post) := get_math_formula token in
    let? vd := internal_parse_integer tok in
    match vd with
    | (None, _) => Ok None
    | (Some value, decimal) =>
        let? value := amf pre post value in
        let? value := check_integer value decimal number_of_bits signed in
        Ok (Some value)
    end.

  (** assembler.py:459-460 *)
  Definition label_address (l : label) : Z := lb_org l + lb_base l.

  (** assembler.py:462-475 get_label_absolute_address_by_name (start = 0) and
      get_label_relative_address_by_name *)
  Definition label_by_name_with (amf : str -> str -> Z -> res Z) (name : str) (start : Z)
    : res (option Z) :=
    let '(nm, pre, post) := get_math_formula name in
    match dget str_eqb lbls nm with
    | None => Ok None
    | Some l => let? v := amf pre post (label_address l - start) in Ok (Some v)
    end.

  (** assembler.py:436-457: the loop over the operators; [argval] evaluates an
      argument. *)
  Fixpoint ops_loop (argval : str -> res Z) (ops : list (ascii * str)) (value : Z) : res Z :=
    match ops with
    | [] => Ok value
    | (cmd, arg) :: t =>
        let? a := (match arg with [] => Ok 1 | _ => argval arg end) in
        let? v := apply_command cmd value a in
        ops_loop argval t v
    end.

  (** assembler.py:404-457 apply_math_formula.  It is mutually recursive with
      parse_integer and the label lookup; [fuel] bounds the nesting and running
      out of it is RecursionError (never reached from [math_fuel], see C08). *)
  Fixpoint apply_math_formula (fuel : nat) (pre post : str) (value : Z) : res Z :=
    ops_loop
      (fun arg =>
         match fuel with
         | O => Err (PExc RecursionError)
         | S f =>
             let? v := parse_integer_with (apply_math_formula f) arg 64 false in
             match v with
             | Some a => Ok a
             | None =>
                 let? l := label_by_name_with (apply_math_formula f) arg 0 in
                 match l with Some a => Ok a | None => Err (AExc (UnknownLabel arg)) end
             end
         end)
      (split_ops None [] post) (apply_pre pre value).

  (** No line of /repo of its own: bound on the nesting of parse_integer and
      apply_math_formula (assembler.py:361, 439); enough by C08_termination. *)
  Definition math_fuel : nat := 8.

  (** assembler.py:356 *)
  Definition parse_integer (token : str) (bits : Z) (signed : bool) : res (option Z) :=
    parse_integer_with (apply_math_formula math_fuel) token bits signed.
  (** assembler.py:462 *)
  Definition label_absolute (name : str) : res (option Z) :=
    label_by_name_with (apply_math_formula math_fuel) name 0.
  (** assembler.py:471 *)
  Definition label_relative (name : str) (start : Z) : res (option Z) :=
    label_by_name_with (apply_math_formula math_fuel) name start.
End Parse.

(** ** Primitives of the assembler object *)

(** assembler.py:297-308 add_label_translation *)
Definition add_label_translation (d : labeldata) : M unit :=
  modify (fun s => set_labels_addresses s
    (dset Z.eqb (labels_addresses s) (zlen (assembled s) + ld_offset d) d)).

(** assembler.py:527-529 append_assembled_bytes *)
Definition append_assembled_bytes (blob : bytes) : M unit :=
  modify (fun s => set_counter (set_assembled s (assembled s ++ blob))
                               (org_counter s + zlen blob)).

(** assembler.py:356 as a method *)
Definition m_parse_integer (p : pcfg) (token : str) (bits : Z) (signed : bool) : M (option Z) :=
  fun s => (s, parse_integer p (labels s) token bits signed).

(** assembler.py:462 as a method *)
Definition m_label_absolute (p : pcfg) (name : str) : M (option Z) :=
  fun s => (s, label_absolute p (labels s) name).

(** assembler.py:383-402 parse_integer_or_label; [d] carries label, size,
    bits_size, relative, offset, alignment, bits, filter and hook. *)
Definition parse_integer_or_label (p : pcfg) (d : labeldata) (signed : bool) : M Z :=
  let signed := signed || negb (ld_relative d =? 0) in
  let! v := m_parse_integer p (ld_label d) (ld_bits_size d) signed in
  match v with
  | Some v => ret v
  | None => add_label_translation d ;; ret 0
  end.

(** LabelData for a plain reference: defaults of assembler.py:297-300 *)
Definition plain_ref (l : str) (size bits_size : Z) : labeldata :=
  LabelData l size bits_size 0 0 1 None None None.

(** parse_integer(...) followed by [if value is None: raise
    InvalidArgumentsForDirective(instr)]; assembler.py:597-599, 611-613, 627-629 *)
Definition int_arg (p : pcfg) (token : str) (bits : Z) : M Z :=
  let! v := m_parse_integer p token bits false in
  match v with Some v => ret v | None => araise InvalidArgumentsForDirective end.

(** instr.tokens[i]; assembler.py:174, 597, 602 *)
Definition tok_at (tokens : list str) (i : nat) : M str :=
  match nth_error tokens i with Some t => ret t | None => praise IndexError end.

(** Does the token start with a double or single quote?; assembler.py:534, 708, 719, 728 *)
Definition is_quoted (token : str) : res bool :=
  match token with
  | [] => Err (PExc IndexError)
  | c :: _ => Ok (Ascii.eqb c dquote || Ascii.eqb c squote)
  end.

(** assembler.py:727-730 stringify *)
Definition stringify (value : str) : res str :=
  let? q := is_quoted value in Ok (if q then inner value else value).

(** len(instr.tokens) not in (...), assembler.py:595, 609, 625, 748 *)
Definition len_in (tokens : list str) (l : list nat) : bool :=
  existsb (Nat.eqb (length tokens)) l.

(** ** Directives *)

(** assembler.py:170-177 macro_start, with macros.py:8-10 Macro(tokens).
    The Macro object shared by self.macro_recording and self.macros[key] is
    represented by its key: nothing rebinds self.macros[key] while recording. *)
Definition macro_start (p : pcfg) (tokens : list str) : M unit :=
  let! s := get in
  match macro_recording s with
  | Some _ => araise UnsupportedNestedMacro
  | None =>
      match skipn 1 tokens with
      | [] => praise ValueError
      | name :: args =>
          let key := if case_sensitive p then name else upper name in
          modify (fun s => set_macro_recording
            (set_macros s (dset str_eqb (macros s) key (MkMacro args []))) (Some key))
      end
  end.

(** assembler.py:179-182 macro_end *)
Definition macro_end (tokens : list str) : M unit :=
  let! s := get in
  match macro_recording s with
  | None => araise NotInMacroRecordingMode
  | Some _ => modify (fun s => set_macro_recording s None)
  end.

(** [self.assembled_bytes += blob]; assembler.py:528 without 529 *)
Definition append_raw (blob : bytes) : M unit :=
  modify (fun s => set_assembled s (assembled s ++ blob)).

(** assembler.py:477-506 change_org *)
Definition change_org (p : pcfg) (start stop : Z) : M unit :=
  if (0 <? stop) && (stop <? start) then araise AddressOverlap else
  let! s := get in
  let previous_org := current_org s in
  let previous_org_end := current_org_end s in
  let previous_org_counter := org_counter s in
  modify (fun s => set_org s start stop 0) ;;
  if 0 <? previous_org_end then
    if start <? previous_org + previous_org_counter then araise AddressOverlap else
    if previous_org_end <? start then
      let! blob := lift (fill_blob (fill_value p)
                     ((previous_org_end + 1) - (previous_org + previous_org_counter))) in
      append_raw blob
    else if (start <=? previous_org_end) && (previous_org <? start) then
      let! blob := lift (fill_blob (fill_value p)
                     (start - (previous_org + previous_org_counter))) in
      append_raw blob
    else araise AddressOverlap
  else ret tt.

(** assembler.py:508-520 *)
Definition directive_org (p : pcfg) (tokens : list str) : M unit :=
  if negb (len_in tokens [2; 3]%nat) then araise InvalidArgumentsForDirective else
  let! t1 := tok_at tokens 1 in
  let! start := int_arg p t1 64 in
  let! stop := (if len_in tokens [3]%nat
                then let! t2 := tok_at tokens 2 in int_arg p t2 64
                else ret 0) in
  change_org p start stop.

(** assembler.py:522-525 *)
Definition directive_define (tokens : list str) : M unit :=
  if negb (len_in tokens [3]%nat) then araise InvalidArgumentsForDirective else
  let! k := tok_at tokens 1 in
  let! v := tok_at tokens 2 in
  modify (fun s => set_defines s (dset str_eqb (defines s) k v)).

(** assembler.py:531-543, 545-557, 717-725: .dw (size 2), .dd (size 4),
    .db (size 1) for one token; [enc] encodes string literals and [pk] packs. *)
Definition data_token (p : pcfg) (size : Z) (enc : str -> res bytes)
    (pk : Z -> res bytes) (token : str) : M unit :=
  let! q := lift (is_quoted token) in
  if q then let! blob := lift (enc (inner token)) in append_assembled_bytes blob
  else
    let! v := parse_integer_or_label p (plain_ref token size (8 * size)) false in
    let! blob := lift (pk v) in
    append_assembled_bytes blob.

(** assembler.py:717-725 *)
Definition directive_db (p : pcfg) (tokens : list str) : M unit :=
  iter (data_token p 1 encode_ascii (fun v => pack_byte [Some v])) (skipn 1 tokens).
(** assembler.py:531-543 *)
Definition directive_dw (p : pcfg) (tokens : list str) : M unit :=
  iter (data_token p 2 (fun s => Ok (encode_utf16 s))
          (fun v => if big_endian p then pack_be16u [Some v] else pack_le16u [Some v]))
       (skipn 1 tokens).
(** assembler.py:545-557 *)
Definition directive_dd (p : pcfg) (tokens : list str) : M unit :=
  iter (data_token p 4 (fun s => Ok (encode_utf32 s))
          (fun v => if big_endian p then pack_be32u [Some v] else pack_le32u [Some v]))
       (skipn 1 tokens).

(** assembler.py:560-564, 682-686: the hooks; bytes are written one by one so
    that the earlier ones stay when a later index is out of range. *)
Fixpoint write_bytes (address : Z) (blob : bytes) (out : bytes) : bytes * option exc :=
  match blob with
  | [] => (out, None)
  | b :: t =>
      match set_index out address b with
      | Ok out' => write_bytes (address + 1) t out'
      | Err e => (out, Some e)
      end
  end.
(** assembler.py:559-564 dw_to_str, 681-686 db_to_str *)
Definition to_str_hook (width : nat) (address true_address : Z) (out : bytes)
  : bytes * option exc :=
  write_bytes address (map ord (format_0d width true_address)) out.

(** assembler.py:566-577 (.dw_to_ascii: size 2, width 5, utf16) and 688-699
    (.db_to_ascii: size 1, width 3, ascii) for one token.  int() of a utf16
    byte string always fails because of the byte-order mark. *)
Definition to_ascii_token (p : pcfg) (size : Z) (width : nat) (utf16 : bool) (token : str)
  : M unit :=
  let! q := lift (is_quoted token) in
  if q then
    if utf16 then praise ValueError
    else
      let! _ := lift (encode_ascii (inner token)) in
      match py_int 10 (inner token) with
      | Some v => append_assembled_bytes (map ord (str_of_int v))
      | None => praise ValueError
      end
  else
    let! v := m_parse_integer p token (8 * size) false in
    match v with
    | None =>
        add_label_translation
          (LabelData token size (8 * size) 0 0 1 None None (Some (to_str_hook width))) ;;
        append_assembled_bytes (repeat 0 width)
    | Some v => append_assembled_bytes (map ord (str_of_int v))
    end.

(** assembler.py:681-699 *)
Definition directive_db_to_ascii (p : pcfg) (tokens : list str) : M unit :=
  iter (to_ascii_token p 1 3 false) (skipn 1 tokens).
(** assembler.py:701-703 *)
Definition directive_db_to_asciiz (p : pcfg) (tokens : list str) : M unit :=
  directive_db_to_ascii p tokens ;; append_assembled_bytes [0].
(** assembler.py:559-577 *)
Definition directive_dw_to_ascii (p : pcfg) (tokens : list str) : M unit :=
  iter (to_ascii_token p 2 5 true) (skipn 1 tokens).
(** assembler.py:579-581 *)
Definition directive_dw_to_asciiz (p : pcfg) (tokens : list str) : M unit :=
  directive_dw_to_ascii p tokens ;; append_assembled_bytes [0].

(** assembler.py:583-592; line 590 builds the exception without raising it *)
Definition directive_log (tokens : list str) : M unit :=
  match tokens with
  | _ :: t1 :: _ =>
      if str_eqb (upper t1) #"ON" then modify (fun s => set_log s true)
      else if str_eqb (upper t1) #"OFF" then modify (fun s => set_log s false)
      else ret tt
  | _ => modify (fun s => set_log s true)
  end.

(** assembler.py:600-604, 616-620, 631-636: the optional fill value *)
Definition fill_arg (p : pcfg) (tokens : list str) : M Z :=
  if len_in tokens [3]%nat then let! t2 := tok_at tokens 2 in int_arg p t2 8
  else ret (fill_value p).

(** assembler.py:594-606 *)
Definition directive_fill (p : pcfg) (tokens : list str) : M unit :=
  if negb (len_in tokens [2; 3]%nat) then araise InvalidArgumentsForDirective else
  let! t1 := tok_at tokens 1 in
  let! size := int_arg p t1 64 in
  let! value := fill_arg p tokens in
  let! blob := lift (fill_blob value size) in
  append_assembled_bytes blob.

(** assembler.py:608-622 (.goto, [rel] = false) and 624-638 (.upto) *)
Definition directive_goto_upto (rel : bool) (p : pcfg) (tokens : list str) : M unit :=
  if negb (len_in tokens [2; 3]%nat) then araise InvalidArgumentsForDirective else
  let! t1 := tok_at tokens 1 in
  let! offset := int_arg p t1 64 in
  let! s := get in
  if offset <? zlen (assembled s) then araise AddressOverlap else
  let! value := fill_arg p tokens in
  let! blob := lift (fill_blob value
                  (offset - (if rel then pc s - current_org s else pc s))) in
  append_assembled_bytes blob.
(** assembler.py:608-622 *)
Definition directive_goto := directive_goto_upto false.
(** assembler.py:624-638 *)
Definition directive_upto := directive_goto_upto true.

(** assembler.py:640-646 *)
Definition directive_ram (p : pcfg) (tokens : list str) : M unit :=
  if negb (len_in tokens [2]%nat) then araise InvalidArgumentsForDirective else
  let! t1 := tok_at tokens 1 in
  let! size := int_arg p t1 64 in
  if size <? 1 then araise InvalidArgumentsForDirective else
  modify (fun s => set_counter s (org_counter s + size)).

(** assembler.py:648-658 *)
Definition directive_align (p : pcfg) (tokens : list str) : M unit :=
  if negb (len_in tokens [2]%nat) then araise InvalidArgumentsForDirective else
  let! t1 := tok_at tokens 1 in
  let! size := int_arg p t1 64 in
  if size =? 0 then praise ZeroDivisionError else
  let! s := get in
  let m := (current_org s + org_counter s) mod size in
  if negb (m =? 0) then
    let! blob := lift (fill_blob (fill_value p) (size - m)) in
    append_assembled_bytes blob
  else ret tt.

(** assembler.py:660-669 *)
Definition directive_repeat (p : pcfg) (tokens : list str) : M unit :=
  let! s := get in
  match repeat_ s with
  | Some _ => araise UnsupportedNestedRepeat
  | None =>
      if negb (len_in tokens [2]%nat) then araise InvalidArgumentsForDirective else
      let! t1 := tok_at tokens 1 in
      let! size := int_arg p t1 64 in
      if size <=? 0 then araise InvalidArgumentsForDirective else
      modify (fun s => set_repeat s (Some (size, zlen (assembled s))))
  end.

(** assembler.py:671-679 *)
Definition directive_end_repeat (tokens : list str) : M unit :=
  let! s := get in
  match repeat_ s with
  | None => araise NotInRepeatMode
  | Some (size, index) =>
      modify (fun s => set_repeat s None) ;;
      let blob := skipn (Z.to_nat index) (assembled s) in
      times (Z.to_nat (size - 1)) (append_assembled_bytes blob)
  end.

(** assembler.py:705-715 parse_bytes_or_ascii *)
Fixpoint parse_bytes_or_ascii (p : pcfg) (tokens : list str) (blob : bytes) : M bytes :=
  match tokens with
  | [] => ret blob
  | token :: t =>
      let! q := lift (is_quoted token) in
      if q then let! b := lift (encode_ascii (inner token)) in
                parse_bytes_or_ascii p t (blob ++ b)
      else
        let! v := m_parse_integer p token 8 false in
        match v with
        | None => araise LabelNotAllowed
        | Some v => let! b := lift (pack_byte [Some v]) in
                    parse_bytes_or_ascii p t (blob ++ b)
        end
  end.

(** assembler.py:207-210, 761-764: close the open section.
    [if self.current_section:] is false for None and for the empty name. *)
Definition close_section (s : st) : st :=
  match current_section s with
  | Some (c :: n) =>
      let name := c :: n in
      match dget str_eqb (sections s) name with
      | Some sc =>
          set_sections s
            (dset str_eqb (sections s) name
               (MkSection (sc_start sc) (sc_offset sc) (sc_permissions sc)
                  (Some (pc s)) (Some (zlen (assembled s) - sc_offset sc))))
            (current_section s)
      | None => s (* unreachable: the current section is always registered *)
      end
  | _ => s
  end.

(** assembler.py:747-767 *)
Definition directive_section (p : pcfg) (tokens : list str) : M unit :=
  if negb (len_in tokens [3; 4]%nat) then araise InvalidArgumentsForDirective else
  let! t1 := tok_at tokens 1 in
  let! name := lift (stringify t1) in
  let! s := get in
  if dmem str_eqb (sections s) name then araise SectionAlreadyDefined else
  let! permissions := tok_at tokens 2 in
  if negb (forallb (fun c => chr_in c ["R"%char; "W"%char; "X"%char; "E"%char]) permissions)
  then araise InvalidArgumentsForDirective else
  (if len_in tokens [4]%nat then
     let! t3 := tok_at tokens 3 in
     let! start := int_arg p t3 64 in
     change_org p start 0
   else ret tt) ;;
  modify close_section ;;
  modify (fun s => set_sections s
    (dset str_eqb (sections s) name
       (MkSection (pc s) (zlen (assembled s)) permissions None None)) (Some name)).

(** assembler.py:769-775 *)
Definition directive_export (tokens : list str) : M unit :=
  if negb (len_in tokens [2]%nat) then araise InvalidArgumentsForDirective else
  let! t1 := tok_at tokens 1 in
  let! name := lift (stringify t1) in
  let! s := get in
  if str_in name (exports s) then araise SymbolAlreadyExported else
  modify (fun s => set_exports s (exports s ++ [name])).

(** What json.load returns, as far as assembler.py:819-828 inspects it. *)
Inductive json :=
| JNull | JBool (b : bool) | JInt (n : Z) | JFloat | JStr (s : str)
| JList (l : list json) | JDict (d : list (str * json)).

(** An image opened by PIL: mode 'P' or not, size, getpixel.
    platforms/gameboy.py:130, 145-148 *)
Record image := MkImage {
  img_indexed : bool; img_width : Z; img_height : Z; img_pixel : Z -> Z -> Z }.

(** The files of the host: the content as the respective reader returns it.
    Simplification: parsing of CSV, JSON and images is not modelled.
    assembler.py:213, 736, 743, 783, 800, 818 *)
Record env := Env {
  file_text : str -> option str;
  file_bytes : str -> option bytes;
  file_csv : str -> option (list (list str));
  file_json : str -> option json;
  file_image : str -> option image }.

(** open(): assembler.py:213, 736, 743, 783, 800, 818 *)
Definition open_file {A} (f : str -> option A) (name : str) : M A :=
  match f name with Some a => ret a | None => praise OSError end.

(** assembler.py:739-745 *)
Definition directive_incbin (e : env) (tokens : list str) : M unit :=
  if negb (len_in tokens [2]%nat) then araise InvalidArgumentsForDirective else
  let! t1 := tok_at tokens 1 in
  let! name := lift (stringify t1) in
  let! blob := open_file (file_bytes e) name in
  append_assembled_bytes blob.

(** assembler.py:785-790, 802-807: the columns of a CSV file *)
Fixpoint csv_blob (p : pcfg) (bits : Z) (pk : Z -> res bytes) (cols : list str) (blob : bytes)
  : M bytes :=
  match cols with
  | [] => ret blob
  | col :: t =>
      let! v := m_parse_integer p col bits false in
      match v with
      | None => araise LabelNotAllowed
      | Some v => let! b := lift (pk v) in csv_blob p bits pk t (blob ++ b)
      end
  end.

(** bytes((v,)); assembler.py:790, 828 *)
Definition byte_blob (v : Z) : res bytes := fill_blob v 1.

(** assembler.py:777-792 and 794-809 *)
Definition directive_inccsv (e : env) (p : pcfg) (bits : Z) (pk : Z -> res bytes)
    (tokens : list str) : M unit :=
  if negb (len_in tokens [2]%nat) then araise InvalidArgumentsForDirective else
  let! t1 := tok_at tokens 1 in
  let! name := lift (stringify t1) in
  let! rows := open_file (file_csv e) name in
  let! blob := csv_blob p bits pk (concat rows) [] in
  append_assembled_bytes blob.

(** key.split('.'); assembler.py:820 *)
Fixpoint split_dot (acc : str) (s : str) : list str :=
  match s with
  | [] => [acc]
  | c :: t => if Ascii.eqb c "." then acc :: split_dot [] t else split_dot (acc ++ [c]) t
  end.

(** assembler.py:821-822: parsed[key_part] with a str key *)
Fixpoint json_path (j : json) (keys : list str) : res json :=
  match keys with
  | [] => Ok j
  | k :: t =>
      match j with
      | JDict d => match dget str_eqb d k with
                   | Some j' => json_path j' t
                   | None => Err (PExc KeyError)
                   end
      | _ => Err (PExc TypeError)
      end
  end.

(** assembler.py:823: the items iterated by [for item in parsed] *)
Definition json_items (j : json) : res (list json) :=
  match j with
  | JList l => Ok l
  | JDict d => Ok (map (fun '(k, _) => JStr k) d)
  | JStr s => Ok (map (fun c => JStr [c]) s)
  | _ => Err (PExc TypeError)
  end.

(** assembler.py:824-828.  A non-int, non-str item makes parse_integer fail
    with TypeError when it iterates over it (lists: not modelled further). *)
Fixpoint json_blob (p : pcfg) (items : list json) (blob : bytes) : M bytes :=
  match items with
  | [] => ret blob
  | item :: t =>
      let! v := (match item with
                 | JInt n => ret n
                 | JBool b => ret (if b then 1 else 0)
                 | JStr s => let! v := m_parse_integer p s 8 false in
                             match v with Some v => ret v | None => araise LabelNotAllowed end
                 | _ => praise TypeError
                 end) in
      let! b := lift (byte_blob v) in
      json_blob p t (blob ++ b)
  end.

(** assembler.py:811-830 *)
Definition directive_incjson (e : env) (p : pcfg) (tokens : list str) : M unit :=
  if negb (len_in tokens [3]%nat) then araise InvalidArgumentsForDirective else
  let! t1 := tok_at tokens 1 in
  let! name := lift (stringify t1) in
  let! t2 := tok_at tokens 2 in
  let! key := lift (stringify t2) in
  let! j := open_file (file_json e) name in
  let! j := lift (json_path j (split_dot [] key)) in
  let! items := lift (json_items j) in
  let! blob := json_blob p items [] in
  append_assembled_bytes blob.

(** ** Opcode and directive tables *)

(** The values of self.instructions: bytes or a callable (statements.py:41-58). *)
Inductive opcode :=
| OStatic (b : bytes)
| OFun (f : list str -> M (option bytes)).

(** The values of self.directives: the internal ones (assembler.py:111-141)
    and those registered by subclasses. *)
Inductive directive :=
| D_macro | D_endmacro | D_org | D_include | D_incbin | D_inccsv | D_inccsv_le16
| D_incjson | D_define | D_db | D_dw | D_dd | D_db_to_ascii | D_dw_to_ascii
| D_db_to_asciiz | D_dw_to_asciiz | D_fill | D_ram | D_log | D_align | D_repeat
| D_endrepeat | D_goto | D_upto | D_section | D_export
| D_custom (f : list str -> M unit).

(** assembler.py:74-79: what a subclass of Assembler fixes; instructions, directives and the link passes. *)
Record cfg := Cfg {
  c_p : pcfg;
  c_env : env;
  c_instructions : list (str * opcode);
  c_directives : list (str * directive);
  c_pre_link : list (M unit);
  c_post_link : list (M unit) }.

(** assembler.py:860-870 register_instruction / register_directive *)
Definition register {A} (p : pcfg) (table : list (str * A)) (name : str) (a : A)
  : list (str * A) :=
  dset str_eqb table (if case_sensitive p then name else upper name) a.
(** assembler.py:111-165: registrations one after the other *)
Definition register_all {A} (p : pcfg) (table : list (str * A)) (l : list (str * A))
  : list (str * A) :=
  fold_left (fun t '(n, a) => register p t n a) l table.

(** assembler.py:111-141 *)
Definition internal_directives : list (str * directive) :=
  [ (#"macro", D_macro); (#"endmacro", D_endmacro); (#"org", D_org);
    (#"include", D_include); (#"incbin", D_incbin); (#"inccsv", D_inccsv);
    (#"inccsv_le16", D_inccsv_le16); (#"incjson", D_incjson); (#"define", D_define);
    (#"db", D_db); (#"byte", D_db); (#"dw", D_dw); (#"word", D_dw);
    (#"dd", D_dd); (#"dl", D_dd); (#"dword", D_dd);
    (#"db_to_ascii", D_db_to_ascii); (#"dw_to_ascii", D_dw_to_ascii);
    (#"db_to_asciiz", D_db_to_asciiz); (#"dw_to_asciiz", D_dw_to_asciiz);
    (#"fill", D_fill); (#"ram", D_ram); (#"log", D_log); (#"align", D_align);
    (#"repeat", D_repeat); (#"endrepeat", D_endrepeat); (#"goto", D_goto);
    (#"upto", D_upto); (#"section", D_section); (#"export", D_export) ].

(** assembler.py:104-109: the tables of an instance with the given opcodes and
    extra directives *)
Definition mk_cfg (p : pcfg) (e : env) (ops : list (str * opcode))
    (dirs : list (str * directive)) (pre post : list (M unit)) : cfg :=
  Cfg p e (register_all p [] ops)
      (register_all p (register_all p [] internal_directives) dirs) pre post.

(** ** Statements *)

Section Exec.
  Context (c : cfg).
  Let p := c_p c.

  (** statements.py:105-119 Label.assemble *)
  Definition label_assemble (tokens : list str) : M unit :=
    let! s := get in
    match macro_recording s with
    | Some _ => araise LabelNotAllowedInMacro
    | None =>
        let! key := tok_at tokens 0 in
        if dmem str_eqb (labels s) key then araise LabelAlreadyDefined else
        if negb (is_valid_name key) then araise InvalidLabel else
        let! v := m_parse_integer p key 64 false in
        match v with
        | Some _ => araise InvalidLabel
        | None =>
            modify (fun s => set_labels s
              (dset str_eqb (labels s) key
                 (MkLabel (org_counter s) (current_org s) (current_section s))))
        end
    end.

  (** assembler.py:732-737 directive_include; [assemble] is self.assemble *)
  Definition directive_include (assemble : str -> M unit) (tokens : list str) : M unit :=
    if negb (len_in tokens [2]%nat) then araise InvalidArgumentsForDirective else
    let! t1 := tok_at tokens 1 in
    let! name := lift (stringify t1) in
    let! code := open_file (file_text (c_env c)) name in
    assemble code.

  (** The callable stored in self.directives; statements.py:131, assembler.py:111-141 *)
  Definition run_directive (assemble : str -> M unit) (d : directive) (tokens : list str)
    : M unit :=
    match d with
    | D_macro => macro_start p tokens
    | D_endmacro => macro_end tokens
    | D_org => directive_org p tokens
    | D_include => directive_include assemble tokens
    | D_incbin => directive_incbin (c_env c) tokens
    | D_inccsv => directive_inccsv (c_env c) p 8 byte_blob tokens
    | D_inccsv_le16 =>
        directive_inccsv (c_env c) p 16 (fun v => pack_le16u [Some v]) tokens
    | D_incjson => directive_incjson (c_env c) p tokens
    | D_define => directive_define tokens
    | D_db => directive_db p tokens
    | D_dw => directive_dw p tokens
    | D_dd => directive_dd p tokens
    | D_db_to_ascii => directive_db_to_ascii p tokens
    | D_dw_to_ascii => directive_dw_to_ascii p tokens
    | D_db_to_asciiz => directive_db_to_asciiz p tokens
    | D_dw_to_asciiz => directive_dw_to_asciiz p tokens
    | D_fill => directive_fill p tokens
    | D_ram => directive_ram p tokens
    | D_log => directive_log tokens
    | D_align => directive_align p tokens
    | D_repeat => directive_repeat p tokens
    | D_endrepeat => directive_end_repeat tokens
    | D_goto => directive_goto p tokens
    | D_upto => directive_upto p tokens
    | D_section => directive_section p tokens
    | D_export => directive_export tokens
    | D_custom f => f tokens
    end.

  (** statements.py:122-131 Directive.assemble *)
  Definition directive_assemble (assemble : str -> M unit) (tokens : list str) : M unit :=
    let! s := get in
    let tokens := substitute_with_dict tokens (defines s) 1 in
    let! t0 := tok_at tokens 0 in
    let key := skipn 1 t0 in
    let key := if case_sensitive p then key else upper key in
    match dget str_eqb (c_directives c) key with
    | None => araise UnknownDirective
    | Some d => run_directive assemble d tokens
    end.

  (** statements.py:42-54: run a handler, turning failures into
      AssemblerExceptions *)
  Definition call_handler (f : list str -> M (option bytes)) (tokens : list str) : M bytes :=
    fun s => match f tokens s with
             | (s', Ok (Some blob)) => (s', Ok blob)
             | (s', Ok None) => (s', Err (AExc InvalidInstruction))
             | (s', Err (AExc e)) => (s', Err (AExc e))
             | (s', Err (PExc _)) => (s', Err (AExc InvalidInstruction))
             end.

  (** statements.py:38-59: dispatch on the opcode table *)
  Definition opcode_assemble (key : str) (tokens : list str) : M unit :=
    match dget str_eqb (c_instructions c) key with
    | None => araise UnknownInstruction
    | Some (OFun f) =>
        let! blob := call_handler f tokens in append_assembled_bytes blob
    | Some (OStatic blob) =>
        if negb (len_in tokens [1]%nat) then araise InvalidOpCodeArguments
        else append_assembled_bytes blob
    end.

  (** Where the token list of an instruction lives: in a statement that is
      dropped afterwards, or in the body of a macro (the list is mutated in
      place by substitute_with_dict).; macros.py:27-38, statements.py:27 *)
  Inductive place := Fresh | InMacro (key : str) (index : nat).

  (** The in-place update of the tokens: statements.py:27, utils.py:149, 170. *)
  Definition store_tokens (pl : place) (tokens : list str) : M unit :=
    match pl with
    | Fresh => ret tt
    | InMacro key i =>
        modify (fun s =>
          match dget str_eqb (macros s) key with
          | Some m =>
              match nth_error (m_body m) i with
              | Some instr =>
                  set_macros s (dset str_eqb (macros s) key
                    (MkMacro (m_args m)
                       (replace_nth i (Stmt (s_kind instr) tokens (s_line instr)) (m_body m))))
              | None => s
              end
          | None => s
          end)
    end.

  (** macros.py:32-33: the dictionary parameter -> argument *)
  Fixpoint macro_dict (params args : list str) (d : list (str * str)) : res (list (str * str)) :=
    match params, args with
    | [], _ => Ok d
    | x :: params', a :: args' => macro_dict params' args' (dset str_eqb d x a)
    | _ :: _, [] => Err (PExc IndexError)
    end.

  (** macros.py:27-38: the loop of Macro.assemble from the instruction at index
      [i]; [n] instructions remain.  [run] assembles an instruction whose tokens
      live in the macro body. *)
  Fixpoint macro_loop (run : place -> list str -> M unit) (key : str)
      (params args : list str) (n i : nat) : M unit :=
    match n with
    | O => ret tt
    | S n' =>
        let! s := get in
        match dget str_eqb (macros s) key with
        | None => ret tt (* unreachable: macros are never removed *)
        | Some m =>
            match nth_error (m_body m) i with
            | None => ret tt (* unreachable: bodies never shrink *)
            | Some instr =>
                let original := s_tokens instr in
                let! d := lift (macro_dict params args []) in
                let tokens := substitute_with_dict original d 0 in
                store_tokens (InMacro key i) tokens ;;
                run (InMacro key i) tokens ;;
                store_tokens (InMacro key i) original ;;
                macro_loop run key params args n' (S i)
            end
        end
    end.

  (** statements.py:18-59 Instruction.assemble; [fuel] bounds the nesting of
      macro calls (RecursionError in Python). *)
  Fixpoint instruction_assemble (fuel : nat) (line : Z) (pl : place) (tokens : list str)
    : M unit :=
    let! s := get in
    match macro_recording s with
    | Some key =>
        modify (fun s =>
          match dget str_eqb (macros s) key with
          | Some m => set_macros s (dset str_eqb (macros s) key
              (MkMacro (m_args m) (m_body m ++ [Stmt KInstruction tokens line])))
          | None => s (* unreachable: the recorded macro is registered *)
          end)
    | None =>
        let tokens := substitute_with_dict tokens (defines s) 0 in
        store_tokens pl tokens ;;
        let! t0 := tok_at tokens 0 in
        let key := if case_sensitive p then t0 else upper t0 in
        match dget str_eqb (macros s) key with
        | Some m =>
            match fuel with
            | O => praise RecursionError
            | S f =>
                macro_loop (instruction_assemble f line) key (m_args m) (skipn 1 tokens)
                           (length (m_body m)) 0
            end
        | None => opcode_assemble key tokens
        end
    end.

  (** statement.assemble(self) at assembler.py:190 *)
  Definition statement_assemble (fuel : nat) (assemble : str -> M unit) (x : stmt) : M unit :=
    match s_kind x with
    | KLabel => label_assemble (s_tokens x)
    | KDirective => directive_assemble assemble (s_tokens x)
    | KInstruction => instruction_assemble fuel (s_line x) Fresh (s_tokens x)
    end.

  (** assembler.py:199-210: final fill and closing of the open section *)
  Definition assemble_tail : M unit :=
    let! s := get in
    (if 0 <? current_org_end s then
       if current_org s + org_counter s <? current_org_end s then
         let! blob := lift (fill_blob (fill_value p)
                        ((current_org_end s + 1) - (current_org s + org_counter s))) in
         append_assembled_bytes blob
       else ret tt
     else ret tt) ;;
    modify close_section.

  (** assembler.py:184-210 assemble.  The log output (191-197) is not modelled.
      [fuel] bounds the nesting of includes and of macro calls. *)
  Fixpoint assemble (fuel : nat) (code : str) : M unit :=
    let! stmts := lift (tokenize code) in
    iter (statement_assemble fuel
            (match fuel with O => fun _ => praise RecursionError | S f => assemble f end))
         stmts ;;
    assemble_tail.
End Exec.

(** ** Linking *)

(** The linker argument of link(): resolve_unknown_symbol and link.
    assembler.py:272-291, linker.py:9-14 *)
Record linker := Linker {
  lk_resolve : Z -> labeldata -> M Z;
  lk_link : M bytes }.

(** linker.py:9-14 Dummy *)
Definition dummy_linker : linker :=
  Linker (fun _ d => araise (UnknownLabel (ld_label d)))
         (let! s := get in ret (assembled s)).

(** assembler.py:260-265: OR the bytes of the value into the output *)
Fixpoint patch_loop (be : bool) (address size : Z) (value : Z) (i : Z) (n : nat) : M unit :=
  match n with
  | O => ret tt
  | S n' =>
      let v := Z.land (Z.shiftr value (8 * i)) 0xFF in
      let idx := if be then address + ((size - 1) - i) else address + i in
      let! s := get in
      let! old := lift (at_index (assembled s) idx) in
      let! out := lift (set_index (assembled s) idx (Z.lor old v)) in
      modify (fun s => set_assembled s out) ;;
      patch_loop be address size value (i + 1) n'
  end.

(** assembler.py:238-240: the call of the hook *)
Definition apply_hook (h : Z -> Z -> bytes -> bytes * option exc) (address v : Z) : M unit :=
  fun s => let '(out, e) := h address v (assembled s) in
           (set_assembled s out, match e with None => Ok tt | Some e => Err e end).

(** assembler.py:220-265: one iteration of _resolve_labels *)
Definition resolve_one (p : pcfg) (lk : linker) (address : Z) (d : labeldata) : M unit :=
  let is_relative := negb (ld_relative d =? 0) in
  let! absolute := m_label_absolute p (ld_label d) in
  let! true_address :=
    (if is_relative
     then (fun s => (s, label_relative p (labels s) (ld_label d) (ld_relative d)))
     else ret absolute) in
  let! r := (match true_address with
             | Some v => ret (v, absolute)
             | None => let! v := lk_resolve lk address d in ret (v, Some v)
             end) in
  let '(true_address, absolute) := r in
  match ld_hook d with
  | Some h => apply_hook h address true_address
  | None =>
      let! absolute := (match absolute with Some a => ret a | None => praise TypeError end) in
      if ld_alignment d =? 0 then praise ZeroDivisionError else
      if negb (absolute mod ld_alignment d =? 0) then araise (AlignmentError (ld_label d)) else
      if negb is_relative && (true_address <? 0)
      then araise (OnlyForwardAddressesAllowed (ld_label d) true_address) else
      if negb (in_bit_range_decimal true_address (ld_bits_size d) is_relative)
      then araise (NotInBitRange true_address (ld_bits_size d) (Some (ld_label d))) else
      let true_address :=
        match ld_filter d with Some f => f true_address | None => true_address end in
      let! true_address :=
        (match ld_bits d with
         | Some bits => lift (pack_bits 0 [(bits, true_address)])
         | None => ret true_address
         end) in
      patch_loop (big_endian p) address (ld_size d) true_address 0 (Z.to_nat (ld_size d))
  end.

(** assembler.py:220-269 _resolve_labels *)
Definition resolve_labels (p : pcfg) (lk : linker) : M unit :=
  let! s := get in
  iter (fun '(address, d) => resolve_one p lk address d) (labels_addresses s).

(** assembler.py:272-291 link *)
Definition link (c : cfg) (lk : linker) : M unit :=
  iter (fun m => m) (c_pre_link c) ;;
  resolve_labels (c_p c) lk ;;
  iter (fun m => m) (c_post_link c) ;;
  let! out := lk_link lk in
  modify (fun s => set_assembled s out).
