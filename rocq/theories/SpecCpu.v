(** Vocabulary for statements about opcode instructions of a given processor. *)
From Verif Require Import Py Utils Tokenizer State Assembler SpecUtils SpecSubst SpecExec SpecLink.
Local Open Scope Z_scope.

(** In state s the statement with the given words is the opcode instruction t0 with
    operands ops: no macro is being recorded, defined names have been replaced and t0
    is not the name of a macro. *)
Definition opcode_stmt (c : cfg) (s : st) (words : list str) (t0 : str) (ops : list str) : Prop :=
  macro_recording s = None /\ reads s words (t0 :: ops) /\
  dget str_eqb (macros s) (op_key c t0) = None.

(** The state after recording references relative to the end of the output. *)
Fixpoint referring (s : st) (ds : list labeldata) : st :=
  match ds with
  | [] => s
  | d :: t => referring (set_labels_addresses s
                (dset Z.eqb (labels_addresses s) (zlen (assembled s) + ld_offset d) d)) t
  end.

(** Assembling the instruction appends b, records ds and changes nothing else. *)
Definition assembles (c : cfg) (s : st) (words : list str) (b : bytes) (ds : list labeldata) : Prop :=
  forall fuel l, exists s', exec c fuel [Stmt KInstruction words l] s = (s', Ok tt) /\
    emitted (referring s ds) b s'.
(** Assembling the instruction fails. *)
Definition rejected (c : cfg) (s : st) (words : list str) : Prop :=
  forall fuel l, exists e, snd (exec c fuel [Stmt KInstruction words l] s) = Err (AExc e).

(** The token is a number of the given width, or not a number at all. *)
Definition num (p : pcfg) (s : st) (t : str) (bits : Z) (signed : bool) (v : Z) : Prop :=
  parse_integer p (labels s) t bits signed = Ok (Some v).
Definition not_num (p : pcfg) (s : st) (t : str) (bits : Z) (signed : bool) : Prop :=
  parse_integer p (labels s) t bits signed = Ok None.

(** A reference to be filled in by the linker: width of the field in bytes, number of
    bits of the value, place in the instruction, base of a relative reference. *)
Definition ref (t : str) (size bits offset relative : Z) : labeldata :=
  LabelData t size bits relative offset 1 None None None.

(** At most one reference per byte: no other reference of s touches the bytes of the
    reference d recorded at address a. *)
Definition alone (s : st) (a : Z) (d : labeldata) : Prop :=
  exists l1 l2, labels_addresses s = l1 ++ (a, d) :: l2 /\
    forall r i, In r (l1 ++ l2) -> fst r <= i < fst r + ld_size (snd r) ->
      a <= i < a + ld_size d -> False.

(** ** Well-behaved opcode handlers *)

(** What a handler may look at: labels, program counter and operand size. *)
Definition same_view (s1 s2 : st) : Prop :=
  labels s2 = labels s1 /\ current_org s2 = current_org s1 /\ org_counter s2 = org_counter s1 /\
  x86_bits s2 = x86_bits s1.

(** References with sensible widths and no hooks. *)
Definition sound_ref (d : labeldata) : Prop :=
  1 <= ld_size d /\ 1 <= ld_bits_size d /\ 1 <= ld_alignment d /\ ld_hook d = None /\
  (forall b, ld_bits d = Some b -> 0 <= snd b).

(** The references lie within the n bytes of the instruction and do not overlap. *)
Definition placed (n : Z) (ds : list labeldata) : Prop :=
  Forall (fun d => 0 <= ld_offset d /\ ld_offset d + ld_size d <= n) ds /\
  ForallOrdPairs (fun d e => ld_offset d + ld_size d <= ld_offset e \/
                             ld_offset e + ld_size e <= ld_offset d) ds.

(** A handler records references and delivers bytes or an error, depends on nothing but
    the operands, the labels, the program counter and the operand size, and changes
    nothing else. *)
Definition well_behaved (f : list str -> M (option bytes)) : Prop :=
  forall tokens s, exists ds r, f tokens s = (referring s ds, r) /\
    (forall s2, same_view s s2 -> f tokens s2 = (referring s2 ds, r)) /\
    Forall sound_ref ds /\
    (forall b, r = Ok (Some b) -> Forall is_byte b).
(** Moreover the references lie inside the instruction. *)
Definition neat (f : list str -> M (option bytes)) : Prop :=
  forall tokens s s1 b, f tokens s = (s1, Ok (Some b)) ->
    exists ds, s1 = referring s ds /\ Forall sound_ref ds /\ placed (zlen b) ds.

Definition handlers (P : (list str -> M (option bytes)) -> Prop) (c : cfg) : Prop :=
  forall k f, dget str_eqb (c_instructions c) k = Some (OFun f) -> P f.
Definition static_tables (c : cfg) : Prop :=
  forall k b, dget str_eqb (c_instructions c) k = Some (OStatic b) -> Forall is_byte b.
(** The operand size set and bytes appended. *)
Definition put_out (s : st) (bits : Z) (b : bytes) : st :=
  set_counter (set_assembled (set_x86_bits s bits) (assembled s ++ b)) (org_counter s + zlen b).
(** A directive that sets the operand size and appends bytes, depends on nothing but its
    operands and what a handler may look at, and changes nothing else. *)
Definition mild (f : list str -> M unit) : Prop :=
  forall tokens s, exists bits b r, Forall is_byte b /\
    forall s2, same_view s s2 -> f tokens s2 = (put_out s2 bits b, r).
(** A bare processor: no link passes of its own, and only mild directives. *)
Definition bare (c : cfg) : Prop :=
  no_passes c /\ forall k f, dget str_eqb (c_directives c) k = Some (D_custom f) -> mild f.
Definition fits (c : cfg) : Prop := handlers well_behaved c /\ static_tables c /\ bare c.
