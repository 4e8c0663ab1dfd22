(** Model of necroassembler/utils.py *)
From Verif Require Import Py.
Local Open Scope Z_scope.

(** utils.py:6-10 neg_fix *)
Definition neg_fix (value bits : Z) : Z :=
  let negative := Z.shiftl 1 (bits - 1) in
  if negb (Z.land value negative =? 0) then - (Z.shiftl 1 bits) + value else value.

(** The [n & mask if n is not None else 0] comprehension of utils.py:13-68. *)
Definition masked (mask : Z) (n : option Z) : Z :=
  match n with Some v => Z.land v mask | None => 0 end.

(** The [neg_fix(n & mask, bits) if n is not None else 0] comprehension.
    utils.py:18, 23, 38, 48, 53, 68 *)
Definition neg_masked (mask bits : Z) (n : option Z) : Z :=
  match n with Some v => neg_fix (Z.land v mask) bits | None => 0 end.

(** The unsigned packers have one form: utils.py:13-14, 26-33, 41-43, 56-63. *)
Definition pack_u (be : bool) (f : sfield) (mask : Z) (args : list (option Z)) : res bytes :=
  struct_pack be (map (fun _ => f) args) (map (masked mask) args).
(** The signed packers have one form: utils.py:17-23, 36-38, 46-53, 66-68. *)
Definition pack_s (be : bool) (f : sfield) (mask bits : Z) (args : list (option Z)) : res bytes :=
  struct_pack be (map (fun _ => f) args) (map (neg_masked mask bits) args).

(** utils.py:13-14 *)
Definition pack_byte (args : list (option Z)) := pack_u false FB 0xff args.
(** utils.py:17-18 *)
Definition pack_8s (args : list (option Z)) := pack_s false Fb 0xff 8 args.
(** utils.py:21-23 *)
Definition pack_le32s (args : list (option Z)) := pack_s false Fi 0xffffffff 32 args.
(** utils.py:26-28 *)
Definition pack_le32u (args : list (option Z)) := pack_u false FI 0xffffffff args.
(** utils.py:31-33 *)
Definition pack_le64u (args : list (option Z)) := pack_u false FQ 0xffffffffffffffff args.
(** utils.py:36-38 *)
Definition pack_le64s (args : list (option Z)) := pack_s false Fq 0xffffffffffffffff 64 args.
(** utils.py:41-43 *)
Definition pack_be32u (args : list (option Z)) := pack_u true FI 0xffffffff args.
(** utils.py:46-48 *)
Definition pack_be32s (args : list (option Z)) := pack_s true Fi 0xffffffff 32 args.
(** utils.py:51-53 *)
Definition pack_le16s (args : list (option Z)) := pack_s false Fh 0xffff 16 args.
(** utils.py:56-58 *)
Definition pack_le16u (args : list (option Z)) := pack_u false FH 0xffff args.
(** utils.py:61-63 *)
Definition pack_be16u (args : list (option Z)) := pack_u true FH 0xffff args.
(** utils.py:66-68 *)
Definition pack_be16s (args : list (option Z)) := pack_s true Fh 0xffff 16 args.

(** utils.py:71-72 pack; the format string is given as byte order and fields,
    None arguments never occur at the call sites and are not modelled. *)
Definition pack (be : bool) (fmt : list sfield) (args : list Z) : res bytes :=
  struct_pack be fmt args.

(** utils.py:112-114.  number_of_bits is never negative at a call site. *)
Definition in_bit_range (value number_of_bits : Z) : bool :=
  let max_value := 2 ^ number_of_bits - 1 in
  Z.land value max_value =? value.

(** utils.py:117-128 *)
Definition in_bit_range_decimal (value number_of_bits : Z) (signed : bool) : bool :=
  let max_value := 2 ^ number_of_bits in
  if value <? 0 then
    let value := value + max_value in
    if value <? max_value / 2 then false
    else in_bit_range value number_of_bits
  else if signed && (0 <=? value) then in_bit_range value (number_of_bits - 1)
  else in_bit_range value number_of_bits.

(** One iteration of the loop of utils.py:75-92 pack_bits. *)
Definition pack_bits_step (base : Z) (arg : (Z * Z) * Z) : res Z :=
  let '((hi, lo), value) := arg in
  if hi <? lo then Err (AExc InvalidBitRange) else
  let total_bits := hi - lo + 1 in
  let? value :=
    (if value <? 0 then
       let max_value := 2 ^ total_bits in
       let value := value + max_value in
       if value <? max_value / 2 then Err (AExc InvalidBitRange) else Ok value
     else Ok value) in
  if negb (in_bit_range value total_bits) then Err (AExc InvalidBitRange) else
  if lo <? 0 then Err (PExc ValueError) else
  Ok (Z.lor base (Z.land (Z.shiftl value lo) (2 ^ (hi + 1) - 1))).

(** utils.py:75-92 pack_bits *)
Fixpoint pack_bits (base : Z) (args : list ((Z * Z) * Z)) : res Z :=
  match args with
  | [] => Ok base
  | a :: t => let? base := pack_bits_step base a in pack_bits base t
  end.

(** utils.py:95-97 *)
Definition pack_bit (base : Z) (args : list (Z * Z)) : res Z :=
  pack_bits base (map (fun '(x, y) => ((x, x), y)) args).

(** utils.py:100-101 *)
Definition pack_bits_le32u (base : Z) (args : list ((Z * Z) * Z)) : res bytes :=
  let? v := pack_bits base args in pack_le32u [Some v].
(** utils.py:104-105 *)
Definition pack_bits_le16u (base : Z) (args : list ((Z * Z) * Z)) : res bytes :=
  let? v := pack_bits base args in pack_le16u [Some v].
(** utils.py:108-109 *)
Definition pack_bits_be16u (base : Z) (args : list ((Z * Z) * Z)) : res bytes :=
  let? v := pack_bits base args in pack_be16u [Some v].

(** utils.py:136-137 the characters allowed in a name *)
Definition valid_name_char (c : ascii) : bool :=
  let n := ord c in
  ((97 <=? n) && (n <=? 122)) || ((65 <=? n) && (n <=? 90))
  || ((48 <=? n) && (n <=? 57)) || (n =? 95) || (n =? 46).

(** utils.py:135-141 *)
Definition is_valid_name (name : str) : bool := forallb valid_name_char name.

(** utils.py:159-160, 166-167: an accumulated name is replaced when defined *)
Definition subst_name (dict : list (str * str)) (acc : str) : str :=
  match acc with
  | [] => []
  | _ => match dget str_eqb dict acc with Some v => v | None => acc end
  end.

(** utils.py:151-168: the decomposition loop; [acc] is the accumulator. *)
Fixpoint subst_chars (dict : list (str * str)) (acc : str) (s : str) : str :=
  match s with
  | [] => subst_name dict acc
  | c :: t =>
      if valid_name_char c then subst_chars dict (acc ++ [c]) t
      else subst_name dict acc ++ c :: subst_chars dict [] t
  end.

(** utils.py:146-170: one token *)
Definition subst_token (dict : list (str * str)) (name : str) : str :=
  match dget str_eqb dict name with
  | Some v => v
  | None => subst_chars dict [] name
  end.

(** utils.py:144-170 substitute_with_dict(tokens, dict, start) *)
Definition substitute_with_dict (tokens : list str) (dict : list (str * str)) (start : nat)
  : list str :=
  firstn start tokens ++ map (subst_token dict) (skipn start tokens).

(** Patterns accepted by Instruction.match and utils.match: None, a callable,
    a string or a tuple of strings. utils.py:176-187, statements.py:64-75 *)
Inductive pattern :=
| PAny
| PFun (f : str -> bool)
| PStr (s : str)
| PTuple (l : list str).

(** utils.py:178-187: one element of utils.match *)
Definition match1 (p : pattern) (tok : str) : bool :=
  match p with
  | PAny => true
  | PStr s => str_eqb (upper tok) (upper s)
  | PFun f => f tok
  | PTuple l => existsb (fun x => str_eqb (upper tok) (upper x)) l
  end.

(** The loop over the patterns: utils.py:176-188, statements.py:64-76. *)
Fixpoint match_all (f : pattern -> str -> bool) (ps : list pattern) (toks : list str) : bool :=
  match ps, toks with
  | [], _ => true
  | p :: ps', t :: toks' => f p t && match_all f ps' toks'
  | _ :: _, [] => false
  end.

(** utils.py:173-189 match(iterable, *args) *)
Definition match_ (toks : list str) (ps : list pattern) : bool :=
  Nat.eqb (length toks) (length ps) && match_all match1 ps toks.
