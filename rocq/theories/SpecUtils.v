(** Independent specifications for the numeric utilities: reading bytes back as
    numbers, validity of bit fields.  Only the result type of the
    model is used. *)
From Verif Require Import Py.
Local Open Scope Z_scope.

(** A byte. *)
Definition is_byte (b : Z) : Prop := 0 <= b < 256.

(** The number denoted by bytes, least significant first. *)
Fixpoint le_value (b : list Z) : Z :=
  match b with [] => 0 | x :: t => x + 256 * le_value t end.

(** The number denoted by bytes in the given byte order. *)
Definition read_value (be : bool) (b : list Z) : Z :=
  if be then le_value (rev b) else le_value b.

(** Two's complement reading of a w-bit number. *)
Definition as_signed (w v : Z) : Z := if v <? 2 ^ (w - 1) then v else v - 2 ^ w.

(** Read n consecutive fields of w bytes. *)
Fixpoint read_fields (be : bool) (w n : nat) (b : list Z) : list Z :=
  match n with
  | O => []
  | S n' => read_value be (firstn w b) :: read_fields be w n' (skipn w b)
  end.

(** A missing argument counts as 0. *)
Definition arg_value (a : option Z) : Z := match a with Some v => v | None => 0 end.

(** Bit field [lo..hi] and a value that fits it, signed or unsigned. *)
Definition field := ((Z * Z) * Z)%type.
Definition f_hi (f : field) := fst (fst f).
Definition f_lo (f : field) := snd (fst f).
Definition f_val (f : field) := snd f.
Definition f_width (f : field) := f_hi f - f_lo f + 1.

Definition field_ok (f : field) : Prop :=
  f_lo f <= f_hi f /\ - 2 ^ (f_width f - 1) <= f_val f < 2 ^ f_width f.

Definition in_field (f : field) (i : Z) : bool := (f_lo f <=? i) && (i <=? f_hi f).

(** Bit i contributed by the fields: the two's complement bit of the value. *)
Definition fields_bit (fs : list field) (i : Z) : bool :=
  existsb (fun f => in_field f i && Z.testbit (f_val f) (i - f_lo f)) fs.

Definition disjoint (f g : field) : Prop := f_hi f < f_lo g \/ f_hi g < f_lo f.

(** [pk] never fails and each w-byte field reads back as the argument modulo 2^(8w). *)
Definition packs_unsigned (be : bool) (w : nat) (pk : list (option Z) -> res bytes) : Prop :=
  forall args, exists out,
    pk args = Ok out /\ length out = (w * length args)%nat /\ Forall is_byte out /\
    read_fields be w (length args) out
      = map (fun a => arg_value a mod 2 ^ (8 * Z.of_nat w)) args.

(** Bytes read back as the two's complement value of the argument. *)
Definition packs_signed (be : bool) (w : nat) (pk : list (option Z) -> res bytes) : Prop :=
  forall args, exists out,
    pk args = Ok out /\ length out = (w * length args)%nat /\ Forall is_byte out /\
    let vals := map (as_signed (8 * Z.of_nat w)) (read_fields be w (length args) out) in
    Forall2 (fun a r => - 2 ^ (8 * Z.of_nat w - 1) <= r < 2 ^ (8 * Z.of_nat w - 1) /\
                        (r - arg_value a) mod 2 ^ (8 * Z.of_nat w) = 0) args vals.
