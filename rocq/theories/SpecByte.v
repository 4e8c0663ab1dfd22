(** How byte-oriented processors store the operand of an instruction. *)
From Verif Require Import Py Utils Tokenizer State Assembler SpecExec SpecCpu.
Local Open Scope Z_scope.

(** An unsigned byte, a 16 bit number with the low byte first, the distance from the
    byte after the operand, a signed byte. *)
Inductive field := Byte | Word | Disp | Index.

(** In state s the operand t, to be placed at byte off of the instruction, is stored as
    the bytes b and the references ds: a number by its value, a name by a reference.
    The numbers of a signed byte are those from -128 to 127 and, where the notation is
    not decimal, also those up to 255, which stand for their bits. *)
Inductive stored (p : pcfg) (s : st) (off : Z) : field -> str -> bytes -> list labeldata -> Prop :=
| st_byte t v : num p s t 8 false v -> stored p s off Byte t [v] []
| st_byte_name t : not_num p s t 8 false -> stored p s off Byte t [0] [ref t 1 8 off 0]
| st_word t v : num p s t 16 false v -> stored p s off Word t [v mod 256; v / 256] []
| st_word_name t : not_num p s t 16 false -> stored p s off Word t [0; 0] [ref t 2 16 off 0]
| st_disp t v : num p s t 8 true v -> stored p s off Disp t [v mod 256] []
| st_disp_name t : not_num p s t 8 true -> stored p s off Disp t [0] [ref t 1 8 off (pc s + off + 1)]
| st_index t v : num p s t 8 true v -> stored p s off Index t [v mod 256] []
| st_index_name t : not_num p s t 8 true -> stored p s off Index t [0] [ref t 1 8 off 0].

(** The instruction with the given operand, if any, between two groups of fixed bytes. *)
Inductive laid_out (p : pcfg) (s : st) (pre suf : bytes) : list (field * str) -> bytes -> list labeldata -> Prop :=
| lo_none : laid_out p s pre suf [] (pre ++ suf) []
| lo_one f t b ds : stored p s (zlen pre) f t b ds -> laid_out p s pre suf [(f, t)] (pre ++ b ++ suf) ds.

(** The bytes of the operand in the linked image: those of a number, or the address of the
    name in the final state s2, or its distance from the byte after the operand. *)
Inductive settled (p : pcfg) (s s2 : st) (off : Z) : field -> str -> bytes -> Prop :=
| se_number f t b : stored p s off f t b [] -> settled p s s2 off f t b
| se_byte t a : not_num p s t 8 false -> label_absolute p (labels s2) t = Ok (Some a) -> 0 <= a < 256 ->
    settled p s s2 off Byte t [a]
| se_word t a : not_num p s t 16 false -> label_absolute p (labels s2) t = Ok (Some a) -> 0 <= a < 65536 ->
    settled p s s2 off Word t [a mod 256; a / 256]
| se_disp t v : not_num p s t 8 true -> label_relative p (labels s2) t (pc s + off + 1) = Ok (Some v) -> -128 <= v < 128 ->
    settled p s s2 off Disp t [v mod 256]
| se_index t a : not_num p s t 8 true -> label_absolute p (labels s2) t = Ok (Some a) -> 0 <= a < 256 ->
    settled p s s2 off Index t [a].
Inductive final_layout (p : pcfg) (s s2 : st) (pre suf : bytes) : list (field * str) -> bytes -> Prop :=
| fl_none : final_layout p s s2 pre suf [] (pre ++ suf)
| fl_one f t b : settled p s s2 (zlen pre) f t b -> final_layout p s s2 pre suf [(f, t)] (pre ++ b ++ suf).
