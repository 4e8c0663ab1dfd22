(** Vocabulary for linking with the default linker: the value of a reference, the
    changes it makes to the output, and the faults that stop linking. *)
From Verif Require Import Py Utils State Assembler SpecUtils SpecParse.
Local Open Scope Z_scope.

(** The name a reference depends on: the token without the leading < and > and without
    the trailing arithmetic. *)
Definition head_of (t name : str) : Prop :=
  exists sel post, t = sel ++ name ++ post /\
    selector sel /\
    no_select name /\ no_ops name /\ name <> [] /\
    (post = [] \/ exists o r, post = o :: r /\ In o op_chars).

Section Link.
  Context (p : pcfg) (lbls : list (str * label)).

  (** Absolute address and wanted value of a reference: the address itself, or the
      distance from the base of a relative reference. *)
  Inductive target (d : labeldata) : Z -> Z -> Prop :=
  | tg_absolute a : ld_relative d = 0 -> label_absolute p lbls (ld_label d) = Ok (Some a) ->
      target d a a
  | tg_relative a v : ld_relative d <> 0 -> label_absolute p lbls (ld_label d) = Ok (Some a) ->
      label_relative p lbls (ld_label d) (ld_relative d) = Ok (Some v) -> target d a v.

  Definition aligned (d : labeldata) (a : Z) : Prop := (ld_alignment d | a).
  Definition in_range (d : labeldata) (v : Z) : Prop :=
    if ld_relative d =? 0 then 0 <= v < 2 ^ ld_bits_size d
    else - 2 ^ (ld_bits_size d - 1) <= v < 2 ^ (ld_bits_size d - 1).

  (** The number patched in: the value after the filter, placed in its bit field. *)
  Definition encoded (d : labeldata) (t v : Z) : Prop :=
    let u := match ld_filter d with Some f => f t | None => t end in
    match ld_bits d with
    | Some bits => field_ok (bits, u) /\
        forall i, 0 <= i -> Z.testbit v i = fields_bit [(bits, u)] i
    | None => v = u
    end.

  Definition field_value (d : labeldata) (v : Z) : Prop :=
    exists a t, target d a t /\ aligned d a /\ in_range d t /\ encoded d t v.

  (** What happens to one byte of the output. *)
  Inductive change := OrByte (v : Z) | SetByte (v : Z).
  Definition changed (old : Z) (c : change) : Z :=
    match c with OrByte v => Z.lor old v | SetByte v => v end.

  (** Byte j of a number, least significant first; negative numbers in two's complement. *)
  Definition byte_of (v : Z) (j : nat) : Z := (v / 256 ^ Z.of_nat j) mod 256.

  (** The changes of a reference at address a: its bytes are ORed in, or decimal text is
      written (.db_to_ascii and .dw_to_ascii). *)
  Definition field_changes (be : bool) (a size v : Z) : list (Z * change) :=
    map (fun j => (if be then a + (size - 1 - Z.of_nat j) else a + Z.of_nat j, OrByte (byte_of v j)))
        (seq 0 (Z.to_nat size)).
  Fixpoint text_changes (a : Z) (t : str) : list (Z * change) :=
    match t with [] => [] | c :: r => (a, SetByte (ord c)) :: text_changes (a + 1) r end.

  Inductive ref_changes : Z * labeldata -> list (Z * change) -> Prop :=
  | rc_field a d v : ld_hook d = None -> field_value d v ->
      ref_changes (a, d) (field_changes (big_endian p) a (ld_size d) v)
  | rc_text a d w abs v : ld_hook d = Some (to_str_hook w) -> target d abs v ->
      ref_changes (a, d) (text_changes a (format_0d w v)).

  (** The byte at index i after a list of changes. *)
  Definition final (i : Z) (l : list (Z * change)) (old : Z) : Z :=
    fold_left (fun x '(k, c) => if k =? i then changed x c else x) l old.

  (** Faults, in the order in which they are looked for. *)
  Inductive fault (d : labeldata) : asmexc -> Prop :=
  | f_unknown name : head_of (ld_label d) name -> dget str_eqb lbls name = None ->
      fault d (UnknownLabel (ld_label d))
  | f_alignment a v : ld_hook d = None -> target d a v -> ld_alignment d <> 0 -> ~ aligned d a ->
      fault d (AlignmentError (ld_label d))
  | f_backward a v : ld_hook d = None -> target d a v -> ld_alignment d <> 0 -> aligned d a ->
      ld_relative d = 0 -> v < 0 ->
      fault d (OnlyForwardAddressesAllowed (ld_label d) v)
  | f_range a v : ld_hook d = None -> target d a v -> ld_alignment d <> 0 -> aligned d a ->
      (ld_relative d = 0 -> 0 <= v) -> ~ in_range d v ->
      fault d (NotInBitRange v (ld_bits_size d) (Some (ld_label d)))
  | f_bits a v b : ld_hook d = None -> target d a v -> ld_alignment d <> 0 -> aligned d a ->
      in_range d v -> ld_bits d = Some b -> 0 <= snd b ->
      ~ field_ok (b, match ld_filter d with Some f => f v | None => v end) ->
      fault d InvalidBitRange.
End Link.

(** References as recorded by directives and by well-behaved opcode handlers: positive
    width and alignment, and no hook but the decimal text ones. *)
Definition ref_ok (r : Z * labeldata) : Prop :=
  1 <= ld_bits_size (snd r) /\ 1 <= ld_alignment (snd r) /\
  (forall b, ld_bits (snd r) = Some b -> 0 <= snd b) /\
  (ld_hook (snd r) = None \/ exists w, ld_hook (snd r) = Some (to_str_hook w)).

(** No link passes. *)
Definition no_passes (c : cfg) : Prop := c_pre_link c = [] /\ c_post_link c = [].

(** Bytes a .. a+n-1 of the output. *)
Definition slice {A} (a n : Z) (l : list A) : list A := firstn (Z.to_nat n) (skipn (Z.to_nat a) l).
(** Bytes touched by a reference with a field. *)
Definition covers (r : Z * labeldata) (i : Z) : Prop := fst r <= i < fst r + ld_size (snd r).

(** The bytes of a decimal number in ASCII. *)
Definition ascii_digit (b : Z) : Prop := 48 <= b <= 57.
Definition decimal (b : bytes) : Z := fold_left (fun acc x => 10 * acc + (x - 48)) b 0.
