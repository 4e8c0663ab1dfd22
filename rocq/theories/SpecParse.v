(** Independent specification of integer literals and formulas as a user reads
    them.  From the model only the configuration record and the label table
    are used. *)
From Verif Require Import Py State Assembler.
Local Open Scope Z_scope.

(** ** Numerals *)

Definition low_digits : str := #"0123456789abcdef".
Definition up_digits : str := #"0123456789ABCDEF".

Definition digit (d : Z) (c : ascii) : Prop :=
  0 <= d /\ (nth_error low_digits (Z.to_nat d) = Some c \/
             nth_error up_digits (Z.to_nat d) = Some c).

(** [numeral base s v]: the digit string s denotes v in the base. *)
Inductive numeral (base : Z) : str -> Z -> Prop :=
| num_one c d : digit d c -> d < base -> numeral base [c] d
| num_more s v c d : numeral base s v -> digit d c -> d < base ->
    numeral base (s ++ [c]) (v * base + d).

(** ** Literals in the configured notations *)

Definition is_prefix (a s : str) : Prop := exists t, s = a ++ t.
Definition is_suffix (a s : str) : Prop := exists t, s = t ++ a.

(** Notations: marker, base, and whether it is a decimal notation. *)
Definition prefix_notations (p : pcfg) : list (str * (Z * bool)) :=
  map (fun x => (x, (16, false))) (hex_prefixes p) ++
  map (fun x => (x, (2, false))) (bin_prefixes p) ++
  map (fun x => (x, (8, false))) (oct_prefixes p) ++
  map (fun x => (x, (10, true))) (dec_prefixes p).
Definition suffix_notations (p : pcfg) : list (str * (Z * bool)) :=
  map (fun x => (x, (16, false))) (hex_suffixes p) ++
  map (fun x => (x, (2, false))) (bin_suffixes p) ++
  map (fun x => (x, (8, false))) (oct_suffixes p) ++
  map (fun x => (x, (10, true))) (dec_suffixes p).

Definition no_prefix (l : list (str * (Z * bool))) (s : str) : Prop :=
  Forall (fun n => ~ is_prefix (fst n) s) l.
Definition no_suffix (l : list (str * (Z * bool))) (s : str) : Prop :=
  Forall (fun n => ~ is_suffix (fst n) s) l.

Definition quote_chr : ascii := ascii_of_nat 39.
Definition not_quote (s : str) : Prop := forall t, s <> quote_chr :: t.

(** [literal p s v dec]: s is an integer literal denoting v; dec tells whether
    the notation is decimal.  A notation applies when no notation listed before
    it does. *)
Inductive literal (p : pcfg) : str -> Z -> bool -> Prop :=
| lit_char c : literal p [quote_chr; c; quote_chr] (Z.of_N (N_of_ascii c)) false
| lit_prefix l1 pre base dec l2 s v :
    prefix_notations p = l1 ++ (pre, (base, dec)) :: l2 ->
    numeral base s v -> not_quote (pre ++ s) -> no_prefix l1 (pre ++ s) ->
    literal p (pre ++ s) v dec
| lit_suffix l1 suf base dec l2 s v :
    suffix_notations p = l1 ++ (suf, (base, dec)) :: l2 ->
    suf <> [] ->
    numeral base s v -> (exists w, numeral 10 s w) ->
    no_prefix (prefix_notations p) (s ++ suf) -> no_suffix l1 (s ++ suf) ->
    literal p (s ++ suf) v dec
| lit_dec s v :
    numeral 10 s v ->
    no_prefix (prefix_notations p) s -> no_suffix (suffix_notations p) s ->
    literal p s v true
| lit_neg s v :
    numeral 10 s v ->
    no_prefix (prefix_notations p) ("-"%char :: s) ->
    no_suffix (suffix_notations p) ("-"%char :: s) ->
    literal p ("-"%char :: s) (- v) true.

(** ** Acceptance of a value for a width *)

(** Decimal unsigned operands may be written negative down to -2^(n-1) and stand
    for their two's complement. *)
Definition accepts (n : Z) (signed dec : bool) (v : Z) (w : Z) : Prop :=
  if dec then
    if signed then - 2 ^ (n - 1) <= v < 2 ^ (n - 1) /\ w = v
    else - 2 ^ (n - 1) <= v < 2 ^ n /\ w = v mod 2 ^ n
  else 0 <= v < 2 ^ n /\ w = v.

(** ** Formulas *)

Definition op_chars : list ascii :=
  ["+"%char; "-"%char; "*"%char; "/"%char; "&"%char; "|"%char].
Definition no_ops (s : str) : Prop := Forall (fun c => ~ In c op_chars) s.
Definition no_select (s : str) : Prop :=
  forall c t, s = c :: t -> c <> "<"%char /\ c <> ">"%char.

(** An operand on its own: only its first character may be an operator (sign). *)
Definition plain (s : str) : Prop := no_select s /\ no_ops (tl s).

(** Byte selection: with no [<], each [>] drops a byte; otherwise the i-th [<]
    selects byte i of the value shifted by the number of [>] seen so far. *)
Fixpoint select_low (sel : str) (i g : Z) (v : Z) : Z :=
  match sel with
  | [] => 0
  | c :: t =>
      if Ascii.eqb c ">" then select_low t i (g + 1) v
      else (v / 256 ^ (g + i)) mod 256 * 256 ^ i + select_low t (i + 1) g v
  end.
Definition select (sel : str) (v : Z) : Z :=
  if existsb (Ascii.eqb "<") sel then select_low sel 0 0 v
  else v / 256 ^ Z.of_nat (length sel).

Definition selector (sel : str) : Prop := Forall (fun c => c = "<"%char \/ c = ">"%char) sel.

(** Address of a label. *)
Definition address_of (lbls : list (str * label)) (name : str) (a : Z) : Prop :=
  exists l, dget str_eqb lbls name = Some l /\ a = lb_org l + lb_base l.

Inductive op_result : ascii -> Z -> Z -> Z -> Prop :=
| op_add v a : op_result "+" v a (v + a)
| op_sub v a : op_result "-" v a (v - a)
| op_mul v a : op_result "*" v a (v * a)
| op_div v a : a <> 0 -> op_result "/" v a (v / a)
| op_and v a : op_result "&" v a (Z.land v a)
| op_or v a : op_result "|" v a (Z.lor v a).

(** The value of an operator argument: omitted (1), a literal below 2^64, or a
    name that is not a number, both possibly with byte selectors. *)
Inductive arg_denotes (p : pcfg) (lbls : list (str * label)) : str -> Z -> Prop :=
| arg_omitted : arg_denotes p lbls [] 1
| arg_literal sel s v dec :
    selector sel -> no_select s -> no_ops s -> literal p s v dec -> 0 <= select sel v < 2 ^ 64 ->
    arg_denotes p lbls (sel ++ s) (select sel v)
| arg_label sel s a :
    selector sel -> no_select s -> no_ops s ->
    parse_integer p lbls s 64 false = Ok None -> address_of lbls s a ->
    arg_denotes p lbls (sel ++ s) (select sel a).

Inductive chain_result (p : pcfg) (lbls : list (str * label))
  : list (ascii * str) -> Z -> Z -> Prop :=
| chain_nil v : chain_result p lbls [] v v
| chain_cons op arg a v r t w :
    arg_denotes p lbls arg a -> op_result op v a r -> chain_result p lbls t r w ->
    chain_result p lbls ((op, arg) :: t) v w.

Definition show_chain (ch : list (ascii * str)) : str :=
  flat_map (fun '(op, arg) => op :: arg) ch.

Definition chain_ok (ch : list (ascii * str)) : Prop :=
  Forall (fun '(op, arg) => In op op_chars /\ no_ops arg) ch.

(** Only the addresses of the labels matter. *)
Definition same_addresses (l1 l2 : list (str * label)) : Prop :=
  forall name, match dget str_eqb l1 name, dget str_eqb l2 name with
               | Some a, Some b => lb_org a + lb_base a = lb_org b + lb_base b
               | None, None => True
               | _, _ => False
               end.

(** A non-decimal operand carries a non-decimal marker or is a character. *)
Definition nondecimal (p : pcfg) (s : str) : Prop :=
  (exists x, In x (hex_prefixes p ++ bin_prefixes p ++ oct_prefixes p) /\ is_prefix x s) \/
  (exists x, In x (hex_suffixes p ++ bin_suffixes p ++ oct_suffixes p) /\ is_suffix x s) \/
  (exists c t, s = quote_chr :: c :: quote_chr :: t).

(** Notation markers contain no operator; prefixes do not start with < or >. *)
Definition markers_ok (p : pcfg) : Prop :=
  Forall (fun n => no_select (fst n) /\ no_ops (fst n)) (prefix_notations p) /\
  Forall (fun n => no_ops (fst n)) (suffix_notations p).
