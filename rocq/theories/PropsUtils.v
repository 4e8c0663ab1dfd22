(** C01-C04: numeric utilities. *)
From Coq Require Import Lia.
From Verif Require Import Py Utils SpecUtils UtilsFacts.
Local Open Scope Z_scope.

(** C01 *)
Theorem C01_unsigned_packing :
  packs_unsigned false 1 pack_byte /\ packs_unsigned false 2 pack_le16u /\
  packs_unsigned false 4 pack_le32u /\ packs_unsigned false 8 pack_le64u /\
  packs_unsigned true 2 pack_be16u /\ packs_unsigned true 4 pack_be32u.
Proof.
  repeat split.
  - exact (pack_u_spec false FB _ eq_refl eq_refl).
  - exact (pack_u_spec false FH _ eq_refl eq_refl).
  - exact (pack_u_spec false FI _ eq_refl eq_refl).
  - exact (pack_u_spec false FQ _ eq_refl eq_refl).
  - exact (pack_u_spec true FH _ eq_refl eq_refl).
  - exact (pack_u_spec true FI _ eq_refl eq_refl).
Qed.
Print Assumptions C01_unsigned_packing.

Example C01_example :
  pack_be16u [Some 0x12345; None; Some (-2)] = Ok [0x23; 0x45; 0; 0; 0xff; 0xfe] /\
  read_fields true 2 3 [0x23; 0x45; 0; 0; 0xff; 0xfe] = [0x2345; 0; 0xfffe].
Proof. split; reflexivity. Qed.

(** C02 *)
Theorem C02_signed_packing :
  packs_signed false 1 pack_8s /\ packs_signed false 2 pack_le16s /\
  packs_signed false 4 pack_le32s /\ packs_signed false 8 pack_le64s /\
  packs_signed true 2 pack_be16s /\ packs_signed true 4 pack_be32s.
Proof.
  repeat split.
  - exact (pack_s_spec false Fb _ 8 eq_refl eq_refl eq_refl).
  - exact (pack_s_spec false Fh _ 16 eq_refl eq_refl eq_refl).
  - exact (pack_s_spec false Fi _ 32 eq_refl eq_refl eq_refl).
  - exact (pack_s_spec false Fq _ 64 eq_refl eq_refl eq_refl).
  - exact (pack_s_spec true Fh _ 16 eq_refl eq_refl eq_refl).
  - exact (pack_s_spec true Fi _ 32 eq_refl eq_refl eq_refl).
Qed.
Print Assumptions C02_signed_packing.

Example C02_example :
  pack_be16s [Some (-2); Some 40000] = Ok [0xff; 0xfe; 0x9c; 0x40] /\
  map (as_signed 16) (read_fields true 2 2 [0xff; 0xfe; 0x9c; 0x40]) = [-2; 40000 - 65536].
Proof. split; reflexivity. Qed.

(** C03: success exactly when every field fits, and every bit of the result. *)
Theorem C03_pack_bits_exact : forall fs base,
  Forall (fun f => 0 <= f_lo f) fs ->
  (Forall field_ok fs ->
   exists r, pack_bits base fs = Ok r /\
     forall i, 0 <= i -> Z.testbit r i = Z.testbit base i || fields_bit fs i) /\
  (~ Forall field_ok fs -> pack_bits base fs = Err (AExc InvalidBitRange)).
Proof. exact pack_bits_spec. Qed.
Print Assumptions C03_pack_bits_exact.

(** C03: a field on a clear background, disjoint from the others, reads back. *)
Theorem C03_pack_bits_read_back : forall l1 f l2 base r,
  Forall (fun f => 0 <= f_lo f) (l1 ++ f :: l2) ->
  Forall (disjoint f) (l1 ++ l2) ->
  (forall i, f_lo f <= i <= f_hi f -> Z.testbit base i = false) ->
  pack_bits base (l1 ++ f :: l2) = Ok r ->
  Z.shiftr r (f_lo f) mod 2 ^ f_width f = f_val f mod 2 ^ f_width f.
Proof. exact pack_bits_read. Qed.
Print Assumptions C03_pack_bits_read_back.

Example C03_example :
  pack_bits 0x8000 [((3, 0), -1); ((11, 8), 5)] = Ok 0x850f /\
  Forall field_ok [((3, 0), -1); ((11, 8), 5)] /\
  ~ field_ok ((3, 0), 16) /\ pack_bits 0 [((3, 0), 16)] = Err (AExc InvalidBitRange) /\
  disjoint ((3, 0), -1) ((11, 8), 5).
Proof.
  repeat split; try reflexivity.
  - repeat constructor; cbn; lia.
  - intros [_ H]. cbn in H. lia.
  - left. cbn. lia.
Qed.

(** C04 *)
Theorem C04_in_bit_range : forall v n, 0 <= n -> in_bit_range v n = true <-> 0 <= v < 2 ^ n.
Proof. exact in_bit_range_iff. Qed.
Print Assumptions C04_in_bit_range.

Theorem C04_in_bit_range_decimal : forall v n signed, 1 <= n ->
  in_bit_range_decimal v n signed = true <->
  - 2 ^ (n - 1) <= v < (if signed then 2 ^ (n - 1) else 2 ^ n).
Proof. exact in_bit_range_decimal_iff. Qed.
Print Assumptions C04_in_bit_range_decimal.

Example C04_example :
  in_bit_range 255 8 = true /\ in_bit_range 256 8 = false /\ in_bit_range (-1) 8 = false /\
  in_bit_range_decimal (-128) 8 true = true /\ in_bit_range_decimal (-129) 8 true = false /\
  in_bit_range_decimal 128 8 true = false /\ in_bit_range_decimal 255 8 false = true.
Proof. repeat split; reflexivity. Qed.
