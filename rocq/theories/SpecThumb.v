(** The ARM7TDMI Thumb instruction set as documented: operands, formats and encodings. *)
From Verif Require Import Py Utils Tokenizer State Assembler SpecUtils SpecParse SpecExec SpecLink SpecCpu.
Local Open Scope Z_scope.

(** Registers. *)
Definition low_names : list (str * Z) :=
  [ (#"r0", 0); (#"r1", 1); (#"r2", 2); (#"r3", 3); (#"r4", 4); (#"r5", 5); (#"r6", 6); (#"r7", 7) ].
Definition high_names : list (str * Z) :=
  [ (#"r8", 8); (#"r9", 9); (#"r10", 10); (#"r11", 11); (#"r12", 12); (#"r13", 13); (#"r14", 14); (#"r15", 15);
    (#"fp", 11); (#"ip", 12); (#"sp", 13); (#"lr", 14); (#"pc", 15) ].

(** Operands.  The numbers are the lowest bit of the field in the instruction. *)
Inductive kind :=
| Rl (lo : Z)           (* r0 to r7 *)
| Rh (lo : Z)           (* r8 to r15: the field holds the number less 8 *)
| Rpc | Rsp             (* exactly this register; no field *)
| Imm (n lo k : Z)      (* #value of n + k bits, a field of n bits holds value / 2^k *)
| Word8                 (* #value in words: 8 bits at 0 hold value / 4 *)
| Dest (n : Z)          (* branch destination: n bits at 0 hold displacement / 2 *)
| Comment               (* decimal number of 8 bits at 0 *)
| Lit (s : str).        (* punctuation *)

Definition ind_reg (lo : Z) (r : list kind) : list kind := Rl lo :: Lit #"[" :: r ++ [Lit #"]"].

(** Thumb instructions: mnemonic, the fixed bits, the operands.  The numbers are those of
    the formats in the ARM7TDMI data sheet. *)
Definition manual : list (str * (Z * list kind)) :=
  (* 1: move shifted register *)
  [ (#"LSL", (0x0000, [Rl 0; Rl 3; Imm 5 6 0])); (#"LSR", (0x0800, [Rl 0; Rl 3; Imm 5 6 0]));
    (#"ASR", (0x1000, [Rl 0; Rl 3; Imm 5 6 0]));
  (* 2: add, subtract *)
    (#"ADD", (0x1800, [Rl 0; Rl 3; Rl 6])); (#"ADD", (0x1C00, [Rl 0; Rl 3; Imm 3 6 0]));
    (#"SUB", (0x1A00, [Rl 0; Rl 3; Rl 6])); (#"SUB", (0x1E00, [Rl 0; Rl 3; Imm 3 6 0]));
  (* 3: move, compare, add, subtract immediate *)
    (#"MOV", (0x2000, [Rl 8; Imm 8 0 0])); (#"CMP", (0x2800, [Rl 8; Imm 8 0 0]));
    (#"ADD", (0x3000, [Rl 8; Imm 8 0 0])); (#"SUB", (0x3800, [Rl 8; Imm 8 0 0]));
  (* 4: ALU operations *)
    (#"AND", (0x4000, [Rl 0; Rl 3])); (#"EOR", (0x4040, [Rl 0; Rl 3])); (#"LSL", (0x4080, [Rl 0; Rl 3]));
    (#"LSR", (0x40C0, [Rl 0; Rl 3])); (#"ASR", (0x4100, [Rl 0; Rl 3])); (#"ADC", (0x4140, [Rl 0; Rl 3]));
    (#"SBC", (0x4180, [Rl 0; Rl 3])); (#"ROR", (0x41C0, [Rl 0; Rl 3])); (#"TST", (0x4200, [Rl 0; Rl 3]));
    (#"NEG", (0x4240, [Rl 0; Rl 3])); (#"CMP", (0x4280, [Rl 0; Rl 3])); (#"CMN", (0x42C0, [Rl 0; Rl 3]));
    (#"ORR", (0x4300, [Rl 0; Rl 3])); (#"MUL", (0x4340, [Rl 0; Rl 3])); (#"BIC", (0x4380, [Rl 0; Rl 3]));
    (#"MVN", (0x43C0, [Rl 0; Rl 3]));
  (* 5: high register operations *)
    (#"ADD", (0x4440, [Rl 0; Rh 3])); (#"ADD", (0x4480, [Rh 0; Rl 3])); (#"ADD", (0x44C0, [Rh 0; Rh 3]));
    (#"CMP", (0x4540, [Rl 0; Rh 3])); (#"CMP", (0x4580, [Rh 0; Rl 3])); (#"CMP", (0x45C0, [Rh 0; Rh 3]));
    (#"MOV", (0x4640, [Rl 0; Rh 3])); (#"MOV", (0x4680, [Rh 0; Rl 3])); (#"MOV", (0x46C0, [Rh 0; Rh 3]));
    (#"BX", (0x4700, [Rl 3])); (#"BX", (0x4740, [Rh 3]));
  (* 6: PC-relative load *)
    (#"LDR", (0x4800, ind_reg 8 [Rpc; Word8]));
  (* 7, 8: load and store with register offset *)
    (#"STR", (0x5000, ind_reg 0 [Rl 3; Rl 6])); (#"STRB", (0x5400, ind_reg 0 [Rl 3; Rl 6]));
    (#"LDR", (0x5800, ind_reg 0 [Rl 3; Rl 6])); (#"LDRB", (0x5C00, ind_reg 0 [Rl 3; Rl 6]));
    (#"STRH", (0x5200, ind_reg 0 [Rl 3; Rl 6])); (#"LDSB", (0x5600, ind_reg 0 [Rl 3; Rl 6]));
    (#"LDRH", (0x5A00, ind_reg 0 [Rl 3; Rl 6])); (#"LDSH", (0x5E00, ind_reg 0 [Rl 3; Rl 6]));
  (* 9, 10: load and store with immediate offset *)
    (#"STR", (0x6000, ind_reg 0 [Rl 3; Imm 5 6 2])); (#"LDR", (0x6800, ind_reg 0 [Rl 3; Imm 5 6 2]));
    (#"STRB", (0x7000, ind_reg 0 [Rl 3; Imm 5 6 0])); (#"LDRB", (0x7800, ind_reg 0 [Rl 3; Imm 5 6 0]));
    (#"STRH", (0x8000, ind_reg 0 [Rl 3; Imm 5 6 1])); (#"LDRH", (0x8800, ind_reg 0 [Rl 3; Imm 5 6 1]));
  (* 11: SP-relative load and store *)
    (#"STR", (0x9000, ind_reg 8 [Rsp; Word8])); (#"LDR", (0x9800, ind_reg 8 [Rsp; Word8]));
  (* 12: load address *)
    (#"ADD", (0xA000, [Rl 8; Rpc; Imm 8 0 2])); (#"ADD", (0xA800, [Rl 8; Rsp; Imm 8 0 2]));
  (* 13: add offset to stack pointer *)
    (#"ADD", (0xB000, [Rsp; Imm 7 0 2]));
  (* 16: conditional branch *)
    (#"BEQ", (0xD000, [Dest 8])); (#"BNE", (0xD100, [Dest 8])); (#"BCS", (0xD200, [Dest 8]));
    (#"BCC", (0xD300, [Dest 8])); (#"BMI", (0xD400, [Dest 8])); (#"BPL", (0xD500, [Dest 8]));
    (#"BVS", (0xD600, [Dest 8])); (#"BVC", (0xD700, [Dest 8])); (#"BHI", (0xD800, [Dest 8]));
    (#"BLS", (0xD900, [Dest 8])); (#"BGE", (0xDA00, [Dest 8])); (#"BLT", (0xDB00, [Dest 8]));
    (#"BGT", (0xDC00, [Dest 8])); (#"BLE", (0xDD00, [Dest 8]));
  (* 17: software interrupt; 18: unconditional branch *)
    (#"SWI", (0xDF00, [Comment])); (#"B", (0xE000, [Dest 11])) ].

(** Forms the assembler encodes otherwise than the manual, and forms it always refuses. *)
Definition deviating : list (str * list kind) :=
  [ (#"ADD", [Rl 8; Rpc; Imm 8 0 2]); (#"ADD", [Rl 8; Rsp; Imm 8 0 2]);
    (#"LDRB", ind_reg 0 [Rl 3; Imm 5 6 0]); (#"LDRH", ind_reg 0 [Rl 3; Rl 6]);
    (#"LDRH", ind_reg 0 [Rl 3; Imm 5 6 1]); (#"STR", ind_reg 0 [Rl 3; Imm 5 6 2]) ].
Definition refused : list (str * list kind) :=
  [ (#"STRB", ind_reg 0 [Rl 3; Rl 6]); (#"STRB", ind_reg 0 [Rl 3; Imm 5 6 0]);
    (#"STRH", ind_reg 0 [Rl 3; Imm 5 6 1]); (#"STR", ind_reg 8 [Rsp; Word8]); (#"ADD", [Rsp; Imm 7 0 2]) ].

Definition thumb_cfg : pcfg := PCfg [#"0x"] [] [#"0b"; #"0y"] [] [] [] [] [] false 0 false.

(** The two bytes of an instruction. *)
Definition half_bytes (w : Z) : bytes := [w mod 256; w / 256].

(** A reference to the instruction itself, relative to base: the field of n bits at 0 is
    to hold the distance divided by 2^k. *)
Definition half_ref (t : str) (bits base align n k : Z) : labeldata :=
  LabelData t 2 bits base 0 align (Some (n - 1, 0)) (Some (fun x => Z.shiftr x k)) None.
(** The value of PC seen by a PC-relative load. *)
Definition load_base (s : st) : Z := Z.land (pc s + 4) (-3).

Definition hash (r : str) : str := "#"%char :: r.

(** The contribution of an operand to the instruction, and the references it needs. *)
Inductive operand (s : st) : kind -> str -> Z -> list labeldata -> Prop :=
| o_low lo t n : In (lower t, n) low_names -> operand s (Rl lo) t (n * 2 ^ lo) []
| o_high lo t n : In (lower t, n) high_names -> operand s (Rh lo) t ((n - 8) * 2 ^ lo) []
| o_pc t : In (lower t, 15) high_names -> operand s Rpc t 0 []
| o_sp t : In (lower t, 13) high_names -> operand s Rsp t 0 []
| o_imm n lo k r v : r <> [] -> num thumb_cfg s r 8 false v -> v / 2 ^ k < 2 ^ n ->
    operand s (Imm n lo k) (hash r) (v / 2 ^ k * 2 ^ lo) []
| o_word r v : r <> [] -> num thumb_cfg s r 8 true v -> 0 <= v -> operand s Word8 (hash r) (v / 4) []
| o_word_ref r : r <> [] -> not_num thumb_cfg s r 8 true ->
    operand s Word8 (hash r) 0 [half_ref r 8 (load_base s) 4 8 2]
| o_dest n c r v : c <> "#"%char -> num thumb_cfg s (c :: r) (n + 1) true v ->
    operand s (Dest n) (c :: r) (v / 2 mod 2 ^ n) []
| o_dest_ref n c r : c <> "#"%char -> not_num thumb_cfg s (c :: r) (n + 1) true ->
    operand s (Dest n) (c :: r) 0 [half_ref (c :: r) (n + 1) (pc s + 4) 2 n 1]
| o_comment t v : numeral 10 t v -> v < 256 -> operand s Comment t v []
| o_lit t : operand s (Lit t) t 0 [].

Inductive encodes (s : st) : list kind -> list str -> Z -> list labeldata -> Prop :=
| en_nil : encodes s [] [] 0 []
| en_cons k ks t ts v w ds es : operand s k t v ds -> encodes s ks ts w es ->
    encodes s (k :: ks) (t :: ts) (v + w) (ds ++ es).

(** An operand word with the look of the kind, whatever its value. *)
Inductive looks : kind -> str -> Prop :=
| l_low lo t n : In (lower t, n) low_names -> looks (Rl lo) t
| l_high lo t n : In (lower t, n) high_names -> looks (Rh lo) t
| l_pc t : In (lower t, 15) high_names -> looks Rpc t
| l_sp t : In (lower t, 13) high_names -> looks Rsp t
| l_imm n lo k r : r <> [] -> looks (Imm n lo k) (hash r)
| l_word r : r <> [] -> looks Word8 (hash r)
| l_dest n c r : c <> "#"%char -> looks (Dest n) (c :: r)
| l_comment t v : numeral 10 t v -> looks Comment t
| l_lit t : looks (Lit t) t.

(** Offsets of PC- and SP-relative loads that are not encoded faithfully: negative numbers
    (the field is unsigned), and labels relative to SP. *)
Definition odd_word (s : st) (ops : list str) : Prop :=
  exists a b r, ops = [a; #"["; b; hash r; #"]"] /\
    (((In (lower b, 13) high_names \/ In (lower b, 15) high_names) /\ exists v, num thumb_cfg s r 8 true v /\ v < 0) \/
     (In (lower b, 13) high_names /\ not_num thumb_cfg s r 8 true)).
(** The operands belong to a form without trouble. *)
Definition regular (s : st) (m : str) (ops : list str) : Prop :=
  (forall ks, In (m, ks) (deviating ++ refused) -> ~ Forall2 looks ks ops) /\ ~ odd_word s ops.

(** Elements of a register list: a register, or a range of registers. *)
Inductive item : str -> Z -> Z -> Prop :=
| it_one t n : In (t, n) low_names -> item t n n
| it_range a b m n : In (lower a, m) low_names -> In (lower b, n) low_names -> m <= n ->
    item (a ++ "-"%char :: b) m n.
(** The registers of the list. *)
Definition list_mask (ts : list str) (v : Z) : Prop :=
  Forall (fun t => exists m n, item t m n) ts /\ 0 <= v /\
  forall i, 0 <= i -> Z.testbit v i = true <-> exists t m n, In t ts /\ item t m n /\ m <= i <= n.

(** The place where a call made of the two halves h and l at address a leads. *)
Definition signed11 (h : Z) : Z := if h <? 1024 then h else h - 2048.
Definition call_target (a h l : Z) : Z := a + 4 + signed11 h * 4096 + l * 2.
(** The place where a branch with the field x of n bits at address a leads. *)
Definition branch_target (n a x : Z) : Z := a + 4 + 2 * (if x <? 2 ^ (n - 1) then x else x - 2 ^ n).
(** The word read by a PC-relative load at address a with the field x. *)
Definition load_target (a x : Z) : Z := (a + 4) / 4 * 4 + 4 * x.
