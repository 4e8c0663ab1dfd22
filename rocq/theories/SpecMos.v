(** The MOS 6502 instruction set, in the order of the opcode matrix of the processor
    manual, and the notation of its operands. *)
From Verif Require Import Py Utils Tokenizer State Assembler SpecExec SpecCpu.
Local Open Scope Z_scope.

Inductive mode :=
| Implied | Accumulator | Immediate | ZeroPage | ZeroPageX | ZeroPageY
| Absolute | AbsoluteX | AbsoluteY | Indirect | IndirectX | IndirectY | Relative.

Definition manual : list (Z * str * mode) :=
  [ (0x00, #"BRK", Implied); (0x01, #"ORA", IndirectX); (0x05, #"ORA", ZeroPage);
    (0x06, #"ASL", ZeroPage); (0x08, #"PHP", Implied); (0x09, #"ORA", Immediate);
    (0x0A, #"ASL", Accumulator); (0x0D, #"ORA", Absolute); (0x0E, #"ASL", Absolute);
    (0x10, #"BPL", Relative); (0x11, #"ORA", IndirectY); (0x15, #"ORA", ZeroPageX);
    (0x16, #"ASL", ZeroPageX); (0x18, #"CLC", Implied); (0x19, #"ORA", AbsoluteY);
    (0x1D, #"ORA", AbsoluteX); (0x1E, #"ASL", AbsoluteX);
    (0x20, #"JSR", Absolute); (0x21, #"AND", IndirectX); (0x24, #"BIT", ZeroPage);
    (0x25, #"AND", ZeroPage); (0x26, #"ROL", ZeroPage); (0x28, #"PLP", Implied);
    (0x29, #"AND", Immediate); (0x2A, #"ROL", Accumulator); (0x2C, #"BIT", Absolute);
    (0x2D, #"AND", Absolute); (0x2E, #"ROL", Absolute);
    (0x30, #"BMI", Relative); (0x31, #"AND", IndirectY); (0x35, #"AND", ZeroPageX);
    (0x36, #"ROL", ZeroPageX); (0x38, #"SEC", Implied); (0x39, #"AND", AbsoluteY);
    (0x3D, #"AND", AbsoluteX); (0x3E, #"ROL", AbsoluteX);
    (0x40, #"RTI", Implied); (0x41, #"EOR", IndirectX); (0x45, #"EOR", ZeroPage);
    (0x46, #"LSR", ZeroPage); (0x48, #"PHA", Implied); (0x49, #"EOR", Immediate);
    (0x4A, #"LSR", Accumulator); (0x4C, #"JMP", Absolute); (0x4D, #"EOR", Absolute);
    (0x4E, #"LSR", Absolute);
    (0x50, #"BVC", Relative); (0x51, #"EOR", IndirectY); (0x55, #"EOR", ZeroPageX);
    (0x56, #"LSR", ZeroPageX); (0x58, #"CLI", Implied); (0x59, #"EOR", AbsoluteY);
    (0x5D, #"EOR", AbsoluteX); (0x5E, #"LSR", AbsoluteX);
    (0x60, #"RTS", Implied); (0x61, #"ADC", IndirectX); (0x65, #"ADC", ZeroPage);
    (0x66, #"ROR", ZeroPage); (0x68, #"PLA", Implied); (0x69, #"ADC", Immediate);
    (0x6A, #"ROR", Accumulator); (0x6C, #"JMP", Indirect); (0x6D, #"ADC", Absolute);
    (0x6E, #"ROR", Absolute);
    (0x70, #"BVS", Relative); (0x71, #"ADC", IndirectY); (0x75, #"ADC", ZeroPageX);
    (0x76, #"ROR", ZeroPageX); (0x78, #"SEI", Implied); (0x79, #"ADC", AbsoluteY);
    (0x7D, #"ADC", AbsoluteX); (0x7E, #"ROR", AbsoluteX);
    (0x81, #"STA", IndirectX); (0x84, #"STY", ZeroPage); (0x85, #"STA", ZeroPage);
    (0x86, #"STX", ZeroPage); (0x88, #"DEY", Implied); (0x8A, #"TXA", Implied);
    (0x8C, #"STY", Absolute); (0x8D, #"STA", Absolute); (0x8E, #"STX", Absolute);
    (0x90, #"BCC", Relative); (0x91, #"STA", IndirectY); (0x94, #"STY", ZeroPageX);
    (0x95, #"STA", ZeroPageX); (0x96, #"STX", ZeroPageY); (0x98, #"TYA", Implied);
    (0x99, #"STA", AbsoluteY); (0x9A, #"TXS", Implied); (0x9D, #"STA", AbsoluteX);
    (0xA0, #"LDY", Immediate); (0xA1, #"LDA", IndirectX); (0xA2, #"LDX", Immediate);
    (0xA4, #"LDY", ZeroPage); (0xA5, #"LDA", ZeroPage); (0xA6, #"LDX", ZeroPage);
    (0xA8, #"TAY", Implied); (0xA9, #"LDA", Immediate); (0xAA, #"TAX", Implied);
    (0xAC, #"LDY", Absolute); (0xAD, #"LDA", Absolute); (0xAE, #"LDX", Absolute);
    (0xB0, #"BCS", Relative); (0xB1, #"LDA", IndirectY); (0xB4, #"LDY", ZeroPageX);
    (0xB5, #"LDA", ZeroPageX); (0xB6, #"LDX", ZeroPageY); (0xB8, #"CLV", Implied);
    (0xB9, #"LDA", AbsoluteY); (0xBA, #"TSX", Implied); (0xBC, #"LDY", AbsoluteX);
    (0xBD, #"LDA", AbsoluteX); (0xBE, #"LDX", AbsoluteY);
    (0xC0, #"CPY", Immediate); (0xC1, #"CMP", IndirectX); (0xC4, #"CPY", ZeroPage);
    (0xC5, #"CMP", ZeroPage); (0xC6, #"DEC", ZeroPage); (0xC8, #"INY", Implied);
    (0xC9, #"CMP", Immediate); (0xCA, #"DEX", Implied); (0xCC, #"CPY", Absolute);
    (0xCD, #"CMP", Absolute); (0xCE, #"DEC", Absolute);
    (0xD0, #"BNE", Relative); (0xD1, #"CMP", IndirectY); (0xD5, #"CMP", ZeroPageX);
    (0xD6, #"DEC", ZeroPageX); (0xD8, #"CLD", Implied); (0xD9, #"CMP", AbsoluteY);
    (0xDD, #"CMP", AbsoluteX); (0xDE, #"DEC", AbsoluteX);
    (0xE0, #"CPX", Immediate); (0xE1, #"SBC", IndirectX); (0xE4, #"CPX", ZeroPage);
    (0xE5, #"SBC", ZeroPage); (0xE6, #"INC", ZeroPage); (0xE8, #"INX", Implied);
    (0xE9, #"SBC", Immediate); (0xEA, #"NOP", Implied); (0xEC, #"CPX", Absolute);
    (0xED, #"SBC", Absolute); (0xEE, #"INC", Absolute);
    (0xF0, #"BEQ", Relative); (0xF1, #"SBC", IndirectY); (0xF5, #"SBC", ZeroPageX);
    (0xF6, #"INC", ZeroPageX); (0xF8, #"SED", Implied); (0xF9, #"SBC", AbsoluteY);
    (0xFD, #"SBC", AbsoluteX); (0xFE, #"INC", AbsoluteX) ].

(** Number notation: $ hexadecimal, % binary, @ octal, little-endian. *)
Definition mos_p : pcfg := PCfg [#"$"] [] [#"%"] [] [#"@"] [] [] [] false 0 false.

(** How the operand of an instruction is written. *)
Inductive operand :=
| NoOperand | A_ | Hash (t : str) | Direct (t : str) | DirectX (t : str) | DirectY (t : str)
| Paren (t : str) | ParenX (t : str) | ParenY (t : str) | Target (t : str).

Definition word (t : str) : Prop := exists c r, t = c :: r /\ c <> "#"%char.
Inductive written : list str -> operand -> Prop :=
| w_none : written [] NoOperand
| w_a a : upper a = #"A" -> written [a] A_
| w_hash t : t <> [] -> written ["#"%char :: t] (Hash t)
| w_direct t : word t -> upper t <> #"A" -> written [t] (Direct t)
| w_direct_x t x : word t -> upper x = #"X" -> written [t; x] (DirectX t)
| w_direct_y t y : word t -> upper y = #"Y" -> written [t; y] (DirectY t)
| w_paren t : word t -> written [#"("; t; #")"] (Paren t)
| w_paren_x t x : word t -> upper x = #"X" -> written [#"("; t; x; #")"] (ParenX t)
| w_paren_y t y : word t -> upper y = #"Y" -> written [#"("; t; #")"; y] (ParenY t)
(** The target of a branch; words after it are ignored. *)
| w_target t rest : written (t :: rest) (Target t).

(** Operands with an address: the address, the mode with a one-byte and the mode with a
    two-byte address. *)
Definition addressed (o : operand) : option (str * option mode * option mode) :=
  match o with
  | Direct t => Some (t, Some ZeroPage, Some Absolute)
  | DirectX t => Some (t, Some ZeroPageX, Some AbsoluteX)
  | DirectY t => Some (t, Some ZeroPageY, Some AbsoluteY)
  | Paren t => Some (t, None, Some Indirect)
  | ParenX t => Some (t, Some IndirectX, None)
  | ParenY t => Some (t, Some IndirectY, None)
  | _ => None
  end.

Section Encoding.
  Context (s : st) (mn : str).

  (** The opcode of the mnemonic in the given mode. *)
  Definition op_of (m : mode) (op : Z) : Prop := In (op, mn, m) manual.
  Definition has (m : option mode) : Prop := exists m' op, m = Some m' /\ op_of m' op.

  (** The address an operand denotes now: a number or a label already defined. *)
  Inductive address : str -> Z -> Prop :=
  | a_number t v : num mos_p s t 16 false v -> address t v
  | a_label t v : not_num mos_p s t 16 false ->
      label_absolute mos_p (labels s) t = Ok (Some v) -> address t v.

  (** Bytes and references of an instruction. *)
  Inductive encodes : operand -> bytes -> list labeldata -> Prop :=
  | en_implied op : op_of Implied op -> encodes NoOperand [op] []
  | en_accumulator op : op_of Accumulator op -> encodes A_ [op] []
  | en_immediate op t v : op_of Immediate op -> num mos_p s t 8 false v ->
      encodes (Hash t) [op; v] []
  | en_immediate_name op t : op_of Immediate op -> not_num mos_p s t 8 false ->
      encodes (Hash t) [op; 0] [ref t 1 8 1 0]
  | en_short o t m l op v : addressed o = Some (t, Some m, l) -> op_of m op ->
      address t v -> 0 <= v < 256 -> encodes o [op; v] []
  | en_long o t sh m op v : addressed o = Some (t, sh, Some m) -> op_of m op ->
      num mos_p s t 16 false v -> (has sh -> 256 <= v) ->
      encodes o [op; v mod 256; v / 256] []
  | en_long_name o t sh m op known : addressed o = Some (t, sh, Some m) -> op_of m op ->
      not_num mos_p s t 16 false -> label_absolute mos_p (labels s) t = Ok known ->
      (forall v, known = Some v -> has sh -> ~ 0 <= v < 256) ->
      encodes o [op; 0; 0] [ref t 2 16 1 0]
  | en_branch op t v : op_of Relative op ->
      num mos_p s t 8 (negb (pc s + 2 =? 0)) v -> -128 <= v < 128 ->
      encodes (Target t) [op; v mod 256] []
  | en_branch_name op t : op_of Relative op ->
      not_num mos_p s t 8 (negb (pc s + 2 =? 0)) ->
      encodes (Target t) [op; 0] [ref t 1 8 1 (pc s + 2)].
End Encoding.
