(** Python primitives used by necroassembler: results with exceptions as
    values, strings, [int()], number formatting, dictionaries, slices and
    [struct.pack].  These model the Python 3 runtime, not code of /repo; the
    places in /repo that rely on each primitive are cited. *)
From Coq Require Export Ascii String.
From Coq Require Export ZArith Bool List.
Export ListNotations.
Local Open Scope Z_scope.

(** ** Exceptions and results *)

(** Subclasses of AssemblerException: exceptions.py:1-124, linker.py:5-6,
    cpu/mos6502.py:7-16, cpu/mc68000.py:7-8, cpu/thumb.py:49-50, platforms/gameboy.py:6-23,
    platforms/nes.py:6-23, platforms/sms.py:6-15.
    Simplification: message texts and the statement context are dropped; the
    label and the numbers carried by the message are kept. *)
Inductive asmexc :=
| InvalidOpCodeArguments | UnknownInstruction | LabelNotAllowedInMacro
| InvalidInstruction | NegativeSignNotAllowed | UnknownLabel (l : list ascii)
| AlignmentError (l : list ascii)
| NotInBitRange (v bits : Z) (l : option (list ascii))
| InvalidBitRange | OnlyForwardAddressesAllowed (l : list ascii) (v : Z)
| UnknownDirective | UnsupportedNestedMacro | UnsupportedNestedRepeat
| NotInMacroRecordingMode | NotInRepeatMode | UnknownRegister | InvalidRegister
| InvalideImmediateValue | InvalidArgumentsForDirective | AddressOverlap
| LabelAlreadyDefined | SectionAlreadyDefined | SymbolAlreadyExported
| InvalidLabel | InvalidDefine | LabelNotAllowed
| RelocationNotImplemented
| InvalidMode | AbsoluteAddressNotAllowed | UnsupportedModeForOpcode
| InvalidRList
| InvalidCartridgeHeaderOffset | CartridgeHeaderNotSet
| OnlyIndexedImages | InvalidPaletteEntry | InvalidImageSize.

(** Builtin exceptions reachable from the modelled code, and
    tokenizer.InvalidLabel (tokenizer.py:5-10), which is a plain Exception. *)
Inductive pyexc :=
| ValueError | IndexError | KeyError | TypeError | ZeroDivisionError
| UnicodeEncodeError | StructError | RecursionError | UnboundLocalError
| AttributeError | OSError | TokenizerInvalidLabel.

(** No line of /repo of its own: an exception of either kind (raised throughout, caught as AssemblerException in statements.py:47). *)
Inductive exc := AExc (e : asmexc) | PExc (e : pyexc).

(** No line of /repo of its own: a Python result or the exception raised instead. *)
Inductive res (A : Type) := Ok (a : A) | Err (e : exc).
Arguments Ok {A} a.
Arguments Err {A} e.

(** No line of /repo of its own: sequencing; an exception ends the evaluation. *)
Definition rbind {A B} (m : res A) (k : A -> res B) : res B :=
  match m with Ok a => k a | Err e => Err e end.

Notation "'let?' x ':=' m 'in' k" := (rbind m (fun x => k))
  (at level 200, x pattern, m at level 100, k at level 200, right associativity).

(** No line of /repo of its own: whether no exception was raised. *)
Definition is_ok {A} (r : res A) : bool := match r with Ok _ => true | Err _ => false end.

(** ** Strings *)

(** Python str.  Simplification: characters are 8-bit; texts are meant to be
    ASCII, where [upper], [isdigit] and [int] below agree with Python. *)
Definition str := list ascii.

Notation "# x" := (list_ascii_of_string x%string) (at level 1, x at level 0, format "# x").

(** == on characters (tokenizer.py:34-125). *)
Definition chr_eqb (a b : ascii) : bool := Ascii.eqb a b.

(** Python ord(). *)
Definition ord (c : ascii) : Z := Z.of_N (N_of_ascii c).

(** == on strings (utils.py:148, 181). *)
Fixpoint str_eqb (a b : str) : bool :=
  match a, b with
  | [], [] => true
  | x :: a', y :: b' => Ascii.eqb x y && str_eqb a' b'
  | _, _ => false
  end.

(** char in tuple (tokenizer.py:69-116, assembler.py:425, 836). *)
Definition chr_in (c : ascii) (l : list ascii) : bool := existsb (Ascii.eqb c) l.
(** name in tuple (cpu/thumb.py:32-44). *)
Definition str_in (s : str) (l : list str) : bool := existsb (str_eqb s) l.

(** str.upper() on ASCII letters. statements.py:31, 72 *)
Definition upper_chr (c : ascii) : ascii :=
  let n := N_of_ascii c in
  if ((97 <=? n) && (n <=? 122))%N then ascii_of_N (n - 32)%N else c.
(** str.upper() (statements.py:31, 72; assembler.py:176, 863, 869). *)
Definition upper (s : str) : str := map upper_chr s.

(** str.lower() on ASCII letters. cpu/thumb.py:32 *)
Definition lower_chr (c : ascii) : ascii :=
  let n := N_of_ascii c in
  if ((65 <=? n) && (n <=? 90))%N then ascii_of_N (n + 32)%N else c.
(** str.lower() (cpu/thumb.py:32-44, cpu/lr35902.py:69, cpu/mips32.py:32). *)
Definition lower (s : str) : str := map lower_chr s.

(** str.startswith / str.endswith; assembler.py:316-328, tokenizer.py:71 *)
Fixpoint starts_with (p s : str) : bool :=
  match p, s with
  | [], _ => true
  | _ :: _, [] => false
  | a :: p', b :: s' => Ascii.eqb a b && starts_with p' s'
  end.
(** str.endswith (assembler.py:332-347). *)
Definition ends_with (p s : str) : bool := starts_with (rev p) (rev s).

(** One character of str.isdigit (assembler.py:333). *)
Definition is_digit (c : ascii) : bool :=
  let n := N_of_ascii c in ((48 <=? n) && (n <=? 57))%N.

(** str.isdigit() on ASCII. assembler.py:333-348, cpu/thumb.py:23, cpu/lr35902.py:15 *)
Definition isdigit (s : str) : bool :=
  match s with [] => false | _ => forallb is_digit s end.

(** s[:-n] for n >= 1; assembler.py:333-349 *)
Definition drop_last {A} (n : nat) (s : list A) : list A := firstn (length s - n) s.

(** s[1:-1]; assembler.py:535, 549, 709, 720, 729 *)
Definition inner {A} (s : list A) : list A := drop_last 1 (skipn 1 s).

(** ** int(text, base) *)

(** Value of a digit character in bases up to 36 (CPython _PyLong_DigitValue). *)
Definition digit_value (c : ascii) : option Z :=
  let n := ord c in
  if (48 <=? n) && (n <=? 57) then Some (n - 48)
  else if (97 <=? n) && (n <=? 122) then Some (n - 87)
  else if (65 <=? n) && (n <=? 90) then Some (n - 55)
  else None.

(** A digit as int(text, base) accepts it (assembler.py:317-352). *)
Definition is_base_digit (base : Z) (c : ascii) : bool :=
  match digit_value c with Some d => d <? base | None => false end.

(** ASCII white space skipped by int(). assembler.py:317-352 *)
Definition is_space (c : ascii) : bool :=
  let n := ord c in ((9 <=? n) && (n <=? 13)) || (n =? 32).

(** White space int() skips (assembler.py:317-352). *)
Fixpoint lstrip (s : str) : str :=
  match s with
  | c :: t => if is_space c then lstrip t else s
  | [] => []
  end.

(** Digits with single underscores between them; [prev] says that the previous
    character was an underscore.  Returns the value and the unread text. assembler.py:317-352 *)
Fixpoint scan_digits (base acc : Z) (prev : bool) (s : str) : option (Z * str) :=
  match s with
  | [] => if prev then None else Some (acc, [])
  | c :: t =>
      if Ascii.eqb c "_" then (if prev then None else scan_digits base acc true t)
      else match digit_value c with
           | Some d => if d <? base then scan_digits base (acc * base + d) false t
                       else if prev then None else Some (acc, s)
           | None => if prev then None else Some (acc, s)
           end
  end.

(** Base prefix accepted (and skipped) by int(text, base), with one optional
    underscore after it. assembler.py:317-352 *)
Definition skip_base_prefix (base : Z) (s : str) : str :=
  let skip_us t := match t with c :: t' => if Ascii.eqb c "_" then t' else t | [] => [] end in
  match s with
  | z :: x :: t =>
      if Ascii.eqb z "0" then
        let x' := lower_chr x in
        if ((base =? 16) && Ascii.eqb x' "x") || ((base =? 8) && Ascii.eqb x' "o")
           || ((base =? 2) && Ascii.eqb x' "b")
        then skip_us t else s
      else s
  | _ => s
  end.

(** The unsigned part of int(text, base) (assembler.py:317-352). *)
Definition scan_number (base : Z) (s : str) : option Z :=
  match s with
  | c :: _ =>
      if is_base_digit base c then
        match scan_digits base 0 false s with
        | Some (v, rest) => match lstrip rest with [] => Some v | _ => None end
        | None => None
        end
      else None
  | [] => None
  end.

(** Python int(text, base): None stands for ValueError.  Used at
    assembler.py:317-352, cpu/thumb.py:36,46,463, cpu/mips32.py:31-33.
    Simplification: the 4300-digit limit of recent CPython is not modelled. *)
Definition py_int (base : Z) (s : str) : option Z :=
  let s := lstrip s in
  match s with
  | c :: t =>
      if Ascii.eqb c "-" then
        match scan_number base (skip_base_prefix base t) with
        | Some v => Some (- v) | None => None end
      else if Ascii.eqb c "+" then scan_number base (skip_base_prefix base t)
      else scan_number base (skip_base_prefix base s)
  | [] => None
  end.

(** ** Number formatting *)

(** Digits as str() and format() print them: assembler.py:561, 576, 683, 698, platforms/nes.py:131. *)
Definition digit_chr (d : Z) : ascii :=
  ascii_of_N (Z.to_N (if d <? 10 then d + 48 else d + 87)).

(** Digits of a positive number, most significant first, prepended to [acc].
    assembler.py:561, 576, 683, 698 *)
Fixpoint digits_of (fuel : nat) (base n : Z) (acc : str) : str :=
  match fuel with
  | O => acc
  | S f => if n <? base then digit_chr n :: acc
           else digits_of f base (n / base) (digit_chr (n mod base) :: acc)
  end.

(** Digits of a non-negative number (assembler.py:561, 576, 683, 698; platforms/nes.py:131). *)
Definition nat_digits (base n : Z) : str :=
  digits_of (S (Z.to_nat (Z.log2 n))) base n [].

(** str(int); assembler.py:576, 698 *)
Definition str_of_int (n : Z) : str :=
  if n <? 0 then "-"%char :: nat_digits 10 (- n) else nat_digits 10 n.

(** format(n, '0<width>d'); assembler.py:561, 683 *)
Definition format_0d (width : nat) (n : Z) : str :=
  if n <? 0 then
    let d := nat_digits 10 (- n) in
    "-"%char :: repeat "0"%char (width - 1 - length d) ++ d
  else
    let d := nat_digits 10 n in repeat "0"%char (width - length d) ++ d.

(** ** bytes *)

(** The type of assembled_bytes, assembler.py:76; that items are bytes is proved, not built in. *)
Definition bytes := list Z.

(** len() (assembler.py:189, 301, 529). *)
Definition zlen {A} (l : list A) : Z := Z.of_nat (length l).

(** bytes([v] * n): ValueError when v is not a byte (and n > 0).
    assembler.py:202, 497, 502, 605, 621, 637, 657 *)
Definition fill_blob (v n : Z) : res bytes :=
  if n <=? 0 then Ok []
  else if (0 <=? v) && (v <? 256) then Ok (repeat v (Z.to_nat n))
  else Err (PExc ValueError).

(** str.encode('ascii'); assembler.py:709, 720 *)
Fixpoint encode_ascii (s : str) : res bytes :=
  match s with
  | [] => Ok []
  | c :: t => if ord c <? 128 then let? r := encode_ascii t in Ok (ord c :: r)
              else Err (PExc UnicodeEncodeError)
  end.

(** str.encode() (utf-8) for characters below 256. linker.py:77, 89 *)
Definition encode_utf8 (s : str) : bytes :=
  flat_map (fun c => let n := ord c in
                     if n <? 128 then [n] else [192 + n / 64; 128 + n mod 64]) s.

(** str.encode('utf16') / ('utf32'): byte-order mark then native (little)
    endian code units.  Simplification: little-endian host. assembler.py:535 *)
Definition encode_utf16 (s : str) : bytes :=
  255 :: 254 :: flat_map (fun c => [ord c; 0]) s.
(** str.encode('utf32') (assembler.py:549), little-endian host. *)
Definition encode_utf32 (s : str) : bytes :=
  255 :: 254 :: 0 :: 0 :: flat_map (fun c => [ord c; 0; 0; 0]) s.

(** seq[i] with a non-negative index. assembler.py:263-265 *)
Definition at_index {A} (l : list A) (i : Z) : res A :=
  if i <? 0 then Err (PExc IndexError)
  else match nth_error l (Z.to_nat i) with Some a => Ok a | None => Err (PExc IndexError) end.

(** seq[i] = v with a non-negative index. assembler.py:263-265 *)
Fixpoint replace_nth {A} (n : nat) (v : A) (l : list A) : list A :=
  match l, n with
  | [], _ => []
  | _ :: t, O => v :: t
  | a :: t, S n' => a :: replace_nth n' v t
  end.

(** seq[i] = v with its IndexError (assembler.py:263-265). *)
Definition set_index {A} (l : list A) (i : Z) (v : A) : res (list A) :=
  if (i <? 0) || (zlen l <=? i) then Err (PExc IndexError)
  else Ok (replace_nth (Z.to_nat i) v l).

(** ** Dictionaries: association lists in insertion order *)

Section Dict.
  Context {K V : Type} (eqb : K -> K -> bool).

  (** d[k], d.get(k) (statements.py:34, 40; assembler.py:466). *)
  Fixpoint dget (d : list (K * V)) (k : K) : option V :=
    match d with
    | [] => None
    | (k', v) :: t => if eqb k k' then Some v else dget t k
    end.

  (** k in d (statements.py:33, 38, 110). *)
  Definition dmem (d : list (K * V)) (k : K) : bool :=
    match dget d k with Some _ => true | None => false end.

  (** d[k] = v; assembler.py:177, 308, 864, 870, 875 *)
  Fixpoint dset (d : list (K * V)) (k : K) (v : V) : list (K * V) :=
    match d with
    | [] => [(k, v)]
    | (k', v') :: t => if eqb k k' then (k', v) :: t else (k', v') :: dset t k v
    end.
End Dict.

(** ** struct.pack *)

(** Format characters B b H h I i Q q. utils.py:14-72 *)
Inductive sfield := FB | Fb | FH | Fh | FI | Fi | FQ | Fq.

(** struct sizes of the format characters (utils.py:14-72). *)
Definition sf_size (f : sfield) : nat :=
  match f with FB | Fb => 1 | FH | Fh => 2 | FI | Fi => 4 | FQ | Fq => 8 end.
(** Signedness of the format characters (utils.py:14-72). *)
Definition sf_signed (f : sfield) : bool :=
  match f with FB | FH | FI | FQ => false | _ => true end.

(** n little-endian bytes of v (v taken modulo 256^n). utils.py:14-72 *)
Fixpoint le_bytes (n : nat) (v : Z) : bytes :=
  match n with O => [] | S n' => v mod 256 :: le_bytes n' (v / 256) end.

(** Byte order '<' or '>' of struct.pack (utils.py:22-67). *)
Definition int_bytes (be : bool) (n : nat) (v : Z) : bytes :=
  if be then rev (le_bytes n v) else le_bytes n v.

(** One item: struct.error when the value is out of range for the format. utils.py:14-72 *)
Definition struct_pack1 (be : bool) (f : sfield) (v : Z) : res bytes :=
  let w := 8 * Z.of_nat (sf_size f) in
  let ok := if sf_signed f then (- 2 ^ (w - 1) <=? v) && (v <? 2 ^ (w - 1))
            else (0 <=? v) && (v <? 2 ^ w) in
  if ok then Ok (int_bytes be (sf_size f) v) else Err (PExc StructError).

(** struct.pack(fmt, args...), no padding ('<' or '>' prefix, or only B/b). utils.py:14-72 *)
Fixpoint struct_pack (be : bool) (fs : list sfield) (vs : list Z) : res bytes :=
  match fs, vs with
  | [], [] => Ok []
  | f :: fs', v :: vs' =>
      let? b := struct_pack1 be f v in
      let? r := struct_pack be fs' vs' in Ok (b ++ r)
  | _, _ => Err (PExc StructError)
  end.
