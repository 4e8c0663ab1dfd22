(** What consoles expect of an image: checksums, headers and tiles. *)
From Verif Require Import Py State Assembler SpecUtils SpecExec SpecLink.
Local Open Scope Z_scope.

(** The byte at an address; a field of several bytes. *)
Definition byte_at (rom : bytes) (a : Z) : Z := nth (Z.to_nat a) rom 0.
Definition le32_at (rom : bytes) (a : Z) : Z := read_value false (slice a 4 rom).

(** Nothing but the bytes at the given addresses differs. *)
Definition differ_at (at_ : list Z) (a b : bytes) : Prop :=
  zlen b = zlen a /\ forall i, 0 <= i -> ~ In i at_ -> byte_at b i = byte_at a i.

(** ** Game Boy (Pan Docs) *)

(** 014D: the boot ROM subtracts the bytes 0134..014C and one for each from zero; the low
    byte of the result must be the checksum, i.e. bytes, checksum and 25 add up to 0. *)
Definition gb_header_valid (rom : bytes) : Prop := (total (slice 0x134 26 rom) + 25) mod 256 = 0.
(** 014E-014F: sum of all bytes of the cartridge but these two, high byte first. *)
Definition gb_global_valid (rom : bytes) : Prop :=
  256 * byte_at rom 0x14E + byte_at rom 0x14F = (total rom - byte_at rom 0x14E - byte_at rom 0x14F) mod 65536.

(** 0100-0103: the entry point NOP, JP 0150; 0104-0133: the logo the boot ROM compares. *)
Definition gb_starts (rom : bytes) : Prop :=
  slice 0x100 4 rom = [0x00; 0xC3; 0x50; 0x01] /\
  slice 0x104 48 rom =
    [0xCE; 0xED; 0x66; 0x66; 0xCC; 0x0D; 0x00; 0x0B; 0x03; 0x73; 0x00; 0x83; 0x00; 0x0C; 0x00; 0x0D;
     0x00; 0x08; 0x11; 0x1F; 0x88; 0x89; 0x00; 0x0E; 0xDC; 0xCC; 0x6E; 0xE6; 0xDD; 0xDD; 0xD9; 0x99;
     0xBB; 0xBB; 0x67; 0x63; 0x6E; 0x0E; 0xEC; 0xCC; 0xDD; 0xDC; 0x99; 0x9F; 0xBB; 0xB9; 0x33; 0x3E].

(** ** Mega Drive / Genesis *)

(** The big-endian words of a list. *)
Fixpoint word_total (l : bytes) : Z :=
  match l with h :: l :: t => 256 * h + l + word_total t | _ => 0 end.
(** 018E: sum of the words from 0200 on. *)
Definition genesis_valid (rom : bytes) : Prop :=
  256 * byte_at rom 0x18E + byte_at rom 0x18F = word_total (skipn 0x200 rom) mod 65536.

(** ** Game Boy Advance (GBATEK) *)

(** 00BD: bytes 00A0..00BD and 19h add up to 0. *)
Definition gba_valid (rom : bytes) : Prop := (total (slice 0xA0 30 rom) + 0x19) mod 256 = 0.

(** ** Tiles: the colour of the pixel in column x and row y (0..7) of a tile *)

Definition bit_of (b x : Z) : Z := b / 2 ^ (7 - x) mod 2.
(** Game Boy: two bytes per row, low bits first. *)
Definition gb_pixel (tile : bytes) (x y : Z) : Z :=
  bit_of (byte_at tile (2 * y)) x + 2 * bit_of (byte_at tile (2 * y + 1)) x.
(** NES: eight bytes with the low bits, then eight with the high bits. *)
Definition nes_pixel (tile : bytes) (x y : Z) : Z :=
  bit_of (byte_at tile y) x + 2 * bit_of (byte_at tile (8 + y)) x.
(** Master System: four bytes per row. *)
Definition sms_pixel (tile : bytes) (x y : Z) : Z :=
  bit_of (byte_at tile (4 * y)) x + 2 * bit_of (byte_at tile (4 * y + 1)) x +
  4 * bit_of (byte_at tile (4 * y + 2)) x + 8 * bit_of (byte_at tile (4 * y + 3)) x.

(** The tiles of a picture, in rows from left to right and from top to bottom, show it. *)
Definition shows (pixel : bytes -> Z -> Z -> Z) (size : Z) (img : image) (b : bytes) : Prop :=
  zlen b = size * (img_width img / 8) * (img_height img / 8) /\
  forall x y, 0 <= x < img_width img -> 0 <= y < img_height img ->
    pixel (slice (size * ((y / 8) * (img_width img / 8) + x / 8)) size b) (x mod 8) (y mod 8) = img_pixel img x y.
(** All colours of a picture are at most limit. *)
Definition colours (limit : Z) (img : image) : Prop :=
  forall x y, 0 <= x < img_width img -> 0 <= y < img_height img -> 0 <= img_pixel img x y <= limit.

(** ** Programs *)

(** The files of the given names are assembled one after the other. *)
Inductive assembled_files (c : cfg) (fuel : nat) : list str -> st -> st -> Prop :=
| af_none s : assembled_files c fuel [] s s
| af_file name text names s s1 s2 : file_text (c_env c) name = Some text -> assemble c fuel text s = (s1, Ok tt) ->
    assembled_files c fuel names s1 s2 -> assembled_files c fuel (name :: names) s s2.
(** They assemble and link to an image; s2 is the assembler at the end. *)
Definition builds (c : cfg) (defs : list (str * str)) (fuel : nat) (lk : linker) (sources : list str) (s2 : st) (image : bytes) : Prop :=
  exists s1, assembled_files c fuel sources (init_st defs) s1 /\ link c lk s1 = (s2, Ok tt) /\ assembled s2 = image.

(** ** PlayStation executables *)

(** 2048 bytes of header, then the program in whole sectors of 2048 bytes; fields of the
    header: 10 entry point, 18 load address, 1C size of the program. *)
Record psx_valid (program f : bytes) : Prop := {
  psx_magic : slice 0 8 f = [80; 83; 45; 88; 32; 69; 88; 69];
  psx_entry : le32_at f 0x10 = 0x80010000;
  psx_load : le32_at f 0x18 = 0x80010000;
  psx_size : le32_at f 0x1C = zlen f - 2048;
  psx_sectors : zlen f mod 2048 = 0;
  psx_body : exists n, skipn 2048 f = program ++ repeat 0 n /\ (n < 2048)%nat }.

(** ** Symbol files of the NES debuggers: $ADDRESS#NAME# *)

Definition hex_digit (c : ascii) : option Z :=
  let n := Z.of_N (N_of_ascii c) in
  if (48 <=? n) && (n <=? 57) then Some (n - 48) else if (65 <=? n) && (n <=? 70) then Some (n - 55) else None.
Fixpoint hex_number (acc : Z) (t : str) : option Z :=
  match t with [] => Some acc | c :: t => match hex_digit c with Some d => hex_number (16 * acc + d) t | None => None end end.
Definition symbol_line (name : str) (a : Z) (line : str) : Prop :=
  exists d, length d = 4%nat /\ hex_number 0 d = Some a /\
    line = #"$" ++ d ++ #"#" ++ name ++ #"#" ++ [ascii_of_N 13; ascii_of_N 10].
