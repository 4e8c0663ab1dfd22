(** The part of the Motorola 68000 instruction set covered: operands, addressing modes,
    instruction and extension words. *)
From Verif Require Import Py Utils Tokenizer State Assembler SpecExec SpecCpu.
Local Open Scope Z_scope.

(** ** What an instruction consists of *)

(** A place for a value: bytes taken, bits of the value, whether it is signed, what a
    distance is counted from (from the place itself plus the given number; None: the value
    is not a distance), alignment of the destination, and the remaining bits of the word if
    the value fills only its low bits. *)
Record slot := Slot { sl_bytes : nat; sl_bits : Z; sl_signed : bool; sl_from : option Z; sl_align : Z; sl_word : option Z }.

Definition imm8 := Slot 2 8 false None 1 None.       (* a byte in the low half of a word *)
Definition word16 := Slot 2 16 false None 1 None.
Definition long32 := Slot 4 32 false None 1 None.
Definition disp16 := Slot 2 16 true None 1 None.
Definition index8 (w : Z) := Slot 2 8 true None 1 (Some w).
Definition pc_disp16 := Slot 2 16 true (Some 0) 1 None.
Definition pc_index8 (w : Z) := Slot 2 8 true (Some 0) 1 (Some w).
Definition branch8 (w : Z) := Slot 2 8 true (Some 2) 2 (Some w).
Definition branch16 := Slot 2 16 true (Some 0) 2 None.

Inductive item := Fixed (w : Z) | Val (sl : slot) (t : str).
Definition item_size (i : item) : Z := match i with Fixed _ => 2 | Val sl _ => Z.of_nat (sl_bytes sl) end.
Definition items_size (l : list item) : Z := fold_right (fun i n => item_size i + n) 0 l.

(** Bytes of a number, most significant first. *)
Fixpoint msb (n : nat) (v : Z) : bytes :=
  match n with O => [] | S n => msb n (v / 256) ++ [v mod 256] end.

Definition rest_of (sl : slot) : Z := match sl_word sl with Some w => w | None => 0 end.
Definition base_of (s : st) (off : Z) (sl : slot) : Z :=
  match sl_from sl with Some k => pc s + off + k | None => 0 end.

Section Items.
  Context (p : pcfg) (s : st).

  (** In state s the item at byte off of the instruction is emitted as the bytes b and the
      references ds: a number by its value, a name by a reference. *)
  Inductive stored_item (off : Z) : item -> bytes -> list labeldata -> Prop :=
  | si_fixed w : stored_item off (Fixed w) (msb 2 w) []
  | si_number sl t v : num p s t (sl_bits sl) (sl_signed sl) v ->
      stored_item off (Val sl t) (msb (sl_bytes sl) (rest_of sl + v mod 2 ^ sl_bits sl)) []
  | si_name sl t : not_num p s t (sl_bits sl) (sl_signed sl) ->
      stored_item off (Val sl t) (msb (sl_bytes sl) (rest_of sl))
        [LabelData t (Z.of_nat (sl_bytes sl)) (sl_bits sl) (base_of s off sl) off (sl_align sl)
           (match sl_word sl with Some _ => Some (sl_bits sl - 1, 0) | None => None end) None None].
  Inductive stored_items : Z -> list item -> bytes -> list labeldata -> Prop :=
  | sis_nil off : stored_items off [] [] []
  | sis_cons off i is b bs ds es : stored_item off i b ds -> stored_items (off + zlen b) is bs es ->
      stored_items off (i :: is) (b ++ bs) (ds ++ es).

  (** The bytes of the item in the linked image, s2 being the final state: numbers as
      before; names by their address, or by their distance. *)
  Inductive settled_item (s2 : st) (off : Z) : item -> bytes -> Prop :=
  | se_fixed w : settled_item s2 off (Fixed w) (msb 2 w)
  | se_number sl t v : num p s t (sl_bits sl) (sl_signed sl) v ->
      settled_item s2 off (Val sl t) (msb (sl_bytes sl) (rest_of sl + v mod 2 ^ sl_bits sl))
  | se_address sl t a : not_num p s t (sl_bits sl) (sl_signed sl) -> sl_from sl = None ->
      label_absolute p (labels s2) t = Ok (Some a) -> (sl_align sl | a) -> 0 <= a < 2 ^ sl_bits sl ->
      settled_item s2 off (Val sl t) (msb (sl_bytes sl) (rest_of sl + a))
  | se_distance sl t k a v : not_num p s t (sl_bits sl) (sl_signed sl) -> sl_from sl = Some k ->
      label_absolute p (labels s2) t = Ok (Some a) -> (sl_align sl | a) ->
      label_relative p (labels s2) t (pc s + off + k) = Ok (Some v) ->
      - 2 ^ (sl_bits sl - 1) <= v < 2 ^ (sl_bits sl - 1) ->
      settled_item s2 off (Val sl t) (msb (sl_bytes sl) (rest_of sl + v mod 2 ^ sl_bits sl)).
  Inductive settled_items (s2 : st) : Z -> list item -> bytes -> Prop :=
  | ses_nil off : settled_items s2 off [] []
  | ses_cons off i is b bs : settled_item s2 off i b -> settled_items s2 (off + zlen b) is bs ->
      settled_items s2 off (i :: is) (b ++ bs).
End Items.

(** ** Operands *)

Definition d_names : list (str * Z) :=
  [ (#"d0", 0); (#"d1", 1); (#"d2", 2); (#"d3", 3); (#"d4", 4); (#"d5", 5); (#"d6", 6); (#"d7", 7) ].
Definition a_names : list (str * Z) :=
  [ (#"a0", 0); (#"a1", 1); (#"a2", 2); (#"a3", 3); (#"a4", 4); (#"a5", 5); (#"a6", 6); (#"a7", 7) ].
Definition dreg (t : str) (n : Z) : Prop := In (lower t, n) d_names.
Definition areg (t : str) (n : Z) : Prop := In (lower t, n) a_names.
Definition xreg (t : str) (n k : Z) : Prop := (dreg t n /\ k = 0) \/ (areg t n /\ k = 1).

(** An index register and the upper part of the extension word: register D or A, number,
    size.  Without a size, capital letters are not known. *)
Inductive index : str -> Z -> Prop :=
| ix_word r n k suf : xreg r n k -> lower suf = #".w" -> index (r ++ suf) (k * 32768 + n * 4096)
| ix_long r n k suf : xreg r n k -> lower suf = #".l" -> index (r ++ suf) (k * 32768 + n * 4096 + 2048)
| ix_bare r n k : xreg r n k -> lower r = r -> index r (k * 32768 + n * 4096).

(** The name of an instruction with its size in bytes. *)
Inductive sized (t0 name : str) : Z -> Prop :=
| sz_none : lower t0 = name -> sized t0 name 2
| sz_byte : lower t0 = name ++ #".b" -> sized t0 name 1
| sz_word : lower t0 = name ++ #".w" -> sized t0 name 2
| sz_long : lower t0 = name ++ #".l" -> sized t0 name 4.

Definition imm (sz : Z) : slot := if sz =? 1 then imm8 else if sz =? 2 then word16 else long32.

(** Mode and register of the operands that may be written to, and of those that name a
    place in memory. *)
Definition alterable (m r : Z) : Prop := m <> 1 /\ ~ (m = 7 /\ 2 <= r).
Definition control (m r : Z) : Prop := m = 2 \/ m = 5 \/ m = 6 \/ (m = 7 /\ r <= 3).

(** Size codes of MOVE and of the immediate instructions. *)
Definition move_size (sz : Z) : Z := if sz =? 1 then 1 else if sz =? 2 then 3 else 2.
Definition op_size (sz : Z) : Z := if sz =? 1 then 0 else if sz =? 2 then 1 else 2.

Definition imm_names : list (str * Z) :=
  [ (#"ori", 0x0000); (#"andi", 0x0200); (#"subi", 0x0400); (#"addi", 0x0600); (#"eori", 0x0A00); (#"cmpi", 0x0C00) ].
Definition status_names : list (str * Z) := [ (#"ori", 0x0000); (#"andi", 0x0200); (#"eori", 0x0A00) ].
Definition jump_names : list (str * Z) := [ (#"jmp", 0x4EC0); (#"jsr", 0x4E80) ].
Definition cond_names : list (str * Z) :=
  [ (#"hi", 2); (#"ls", 3); (#"cc", 4); (#"cs", 5); (#"ne", 6); (#"eq", 7); (#"vc", 8); (#"vs", 9);
    (#"pl", 10); (#"mi", 11); (#"ge", 12); (#"lt", 13); (#"gt", 14); (#"le", 15) ].

(** The strict syntax is that of the manual; the other one is what is also let through. *)
Section Forms.
  Context (strict : bool).

  (** A number or an expression: anything but a register, a parenthesis and #... *)
  Definition value (t : str) : Prop :=
    (forall n, ~ dreg t n) /\ (forall n, ~ areg t n) /\ t <> #"(" /\ t <> #")" /\ (forall x, t <> #"#" ++ x) /\
    (strict = true -> t <> #"+" /\ t <> #"-").
  Definition the_pc (t : str) : Prop :=
    lower t = #"pc" \/ (strict = false /\ (lower t = #"p" \/ lower t = #"c")).
  Definition suffix (c : ascii) (t : str) : Prop :=
    lower t = ["."%char; c] \/ (strict = false /\ (t = #"." \/ lower t = [c])).
  Definition no_size (t : str) : Prop :=
    forall x suf, t = x ++ suf -> lower suf <> #".w" /\ lower suf <> #".l".

  (** Effective addresses for an operation on sz bytes: operand, mode, register, extension. *)
  Inductive ea (sz : Z) : list str -> Z -> Z -> list item -> Prop :=
  | ea_d t n : dreg t n -> ea sz [t] 0 n []
  | ea_a t n : areg t n -> ea sz [t] 1 n []
  | ea_at t n : areg t n -> ea sz [#"("; t; #")"] 2 n []
  | ea_post t n : areg t n -> ea sz [#"("; t; #")"; #"+"] 3 n []
  | ea_pre t n : areg t n -> ea sz [#"-"; #"("; t; #")"] 4 n []
  | ea_disp x t n : value x -> areg t n -> ea sz [#"("; x; t; #")"] 5 n [Val disp16 x]
  | ea_index x t n i w : value x -> areg t n -> index i w -> ea sz [#"("; x; t; i; #")"] 6 n [Val (index8 w) x]
  | ea_abs_w x u : value x -> suffix "w" u -> ea sz [#"("; x; #")"; u] 7 0 [Val word16 x]
  | ea_abs_l x u : value x -> suffix "l" u -> ea sz [#"("; x; #")"; u] 7 1 [Val long32 x]
  | ea_w x suf : value (x ++ suf) -> lower suf = #".w" -> ea sz [x ++ suf] 7 0 [Val word16 x]
  | ea_l x suf : value (x ++ suf) -> lower suf = #".l" -> ea sz [x ++ suf] 7 1 [Val long32 x]
  | ea_addr x : value x -> no_size x -> ea sz [x] 7 1 [Val long32 x]
  | ea_pc_disp x t : value x -> the_pc t -> ea sz [#"("; x; t; #")"] 7 2 [Val pc_disp16 x]
  | ea_pc_index x t i w : value x -> the_pc t -> index i w -> ea sz [#"("; x; t; i; #")"] 7 3 [Val (pc_index8 w) x]
  | ea_imm x : x <> [] -> ea sz [#"#" ++ x] 7 4 [Val (imm sz) x].

  (** The condition codes and the status register. *)
  Definition the_ccr (t : str) : Prop :=
    lower t = #"ccr" \/ (strict = false /\ (lower t = #"c" \/ lower t = #"r")).
  Definition the_sr (t : str) : Prop := lower t = #"sr" \/ (strict = false /\ lower t = #"s").
  Definition no_status (dst : list str) : Prop :=
    strict = true -> forall t, dst = [t] -> ~ In (lower t) [#"ccr"; #"sr"; #"c"; #"r"; #"s"].

  (** Instructions: name, operands, words. *)
  Inductive form (t0 : str) : list str -> list item -> Prop :=
  | f_rts : lower t0 = #"rts" -> form t0 [] [Fixed 0x4E75]
  | f_nop : lower t0 = #"nop" -> form t0 [] [Fixed 0x4E71]
  | f_move sz src sm sr si dst dm dr di : sized t0 #"move" sz ->
      ea sz src sm sr si -> ea sz dst dm dr di -> alterable dm dr ->
      form t0 (src ++ dst) (Fixed (move_size sz * 4096 + dr * 512 + dm * 64 + sm * 8 + sr) :: si ++ di)
  | f_movea sz src sm sr si t n : sized t0 #"move" sz \/ sized t0 #"movea" sz -> sz <> 1 ->
      ea sz src sm sr si -> areg t n ->
      form t0 (src ++ [t]) (Fixed (move_size sz * 4096 + n * 512 + 64 + sm * 8 + sr) :: si)
  | f_imm name base sz x dst dm dr di : In (name, base) imm_names -> sized t0 name sz -> x <> [] ->
      ea sz dst dm dr di -> alterable dm dr -> (In (name, base) status_names -> no_status dst) ->
      form t0 ((#"#" ++ x) :: dst) (Fixed (base + op_size sz * 64 + dm * 8 + dr) :: Val (imm sz) x :: di)
  | f_ccr name base sz x t : In (name, base) status_names -> sized t0 name sz -> x <> [] -> the_ccr t ->
      form t0 [#"#" ++ x; t] [Fixed (base + 0x3C); Val imm8 x]
  | f_sr name base sz x t : In (name, base) status_names -> sized t0 name sz -> x <> [] -> the_sr t ->
      form t0 [#"#" ++ x; t] [Fixed (base + 0x7C); Val word16 x]
  | f_jump base src sm sr si : In (lower t0, base) jump_names -> ea 4 src sm sr si -> control sm sr ->
      form t0 src (Fixed (base + sm * 8 + sr) :: si)
  | f_lea src sm sr si t n : lower t0 = #"lea" \/ lower t0 = #"lea.l" -> ea 4 src sm sr si -> control sm sr -> areg t n ->
      form t0 (src ++ [t]) (Fixed (0x41C0 + n * 512 + sm * 8 + sr) :: si)
  | f_branch8 name c x : In (name, c) cond_names -> sized t0 (#"b" ++ name) 1 -> value x ->
      form t0 [x] [Val (branch8 (0x6000 + c * 256)) x]
  | f_branch16 name c x : In (name, c) cond_names -> sized t0 (#"b" ++ name) 2 -> value x ->
      form t0 [x] [Fixed (0x6000 + c * 256); Val branch16 x]
  | f_loop name c t n x : In (name, c) ((#"ra", 1) :: cond_names) -> sized t0 (#"db" ++ name) 2 -> dreg t n -> value x ->
      form t0 [t; x] [Fixed (0x50C8 + c * 256 + n); Val branch16 x]
  | f_loop_tf name c t n x : In (name, c) [(#"t", 0); (#"f", 1)] -> lower t0 = #"db" ++ name -> dreg t n -> value x ->
      form t0 [t; x] [Fixed (0x50C8 + c * 256 + n); Val branch16 x].
End Forms.

(** Instructions that take no notice of anything after their operands. *)
Definition open_ended (t0 : str) : Prop :=
  (exists name sz, In name (#"move" :: map fst imm_names) /\ sized t0 name sz) \/ In (lower t0) (map fst jump_names).
