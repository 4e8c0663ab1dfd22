(** The LR35902 (Game Boy) instruction set, by the regularities of its opcode matrix. *)
From Verif Require Import Py Utils Tokenizer State Assembler SpecExec SpecCpu SpecByte.
Local Open Scope Z_scope.

(** Number notation: $ hexadecimal, % binary, @ octal, little-endian. *)
Definition gb_p : pcfg := PCfg [#"$"] [] [#"%"] [] [#"@"] [] [] [] false 0 false.

(** What may stand in an instruction: a given word in either case, a number or a name,
    a place in the last page written $FF00+n, or any other address. *)
Inductive kind := W (w : str) | V (f : field) | Page | Addr.

(** Words that are never numbers or names of labels. *)
Definition reserved : list str :=
  [ #"A"; #"F"; #"B"; #"C"; #"D"; #"E"; #"H"; #"L"; #"AF"; #"BC"; #"DE"; #"HL"; #"HL+"; #"HL-"; #"SP";
    #"Z"; #"NZ"; #"NC"; #"("; #")"; #"["; #"]" ].
Inductive operand : kind -> str -> list (field * str) -> Prop :=
| o_word w t : upper t = w -> operand (W w) t []
| o_value f t : ~ In (upper t) reserved -> operand (V f) t [(f, t)]
| o_page t : upper t <> #"C" -> operand Page (#"$FF00+" ++ t) [(Byte, t)]
| o_addr t : ~ In (upper t) reserved -> (forall x, t <> #"$FF00+" ++ x) -> upper t <> #"$FF00+C" -> operand Addr t [(Word, t)].
Inductive operands : list kind -> list str -> list (field * str) -> Prop :=
| os_nil : operands [] [] []
| os_cons k ks t ts v vs : operand k t v -> operands ks ts vs -> operands (k :: ks) (t :: ts) (v ++ vs).

Definition form : Type := str * (bytes * list kind).

Definition paren (ks : list kind) : list kind := W #"(" :: ks ++ [W #")"].
(** The operands numbered 0 to 7 (or 0 to 3) in the opcodes. *)
Definition r8 : list (Z * list kind) :=
  [ (0, [W #"B"]); (1, [W #"C"]); (2, [W #"D"]); (3, [W #"E"]); (4, [W #"H"]); (5, [W #"L"]);
    (6, paren [W #"HL"]); (7, [W #"A"]) ].
Definition r16 : list (Z * kind) := [ (0, W #"BC"); (1, W #"DE"); (2, W #"HL"); (3, W #"SP") ].
Definition r16_stack : list (Z * kind) := [ (0, W #"BC"); (1, W #"DE"); (2, W #"HL"); (3, W #"AF") ].
Definition r16_ind : list (Z * kind) := [ (0, W #"BC"); (1, W #"DE"); (2, W #"HL+"); (3, W #"HL-") ].
Definition cond : list (Z * kind) := [ (0, W #"NZ"); (1, W #"Z"); (2, W #"NC"); (3, W #"C") ].
Definition digit3 : list (Z * kind) :=
  [ (0, W #"0"); (1, W #"1"); (2, W #"2"); (3, W #"3"); (4, W #"4"); (5, W #"5"); (6, W #"6"); (7, W #"7") ].
Definition vector : list (Z * kind) :=
  [ (0, W #"00H"); (1, W #"08H"); (2, W #"10H"); (3, W #"18H");
    (4, W #"20H"); (5, W #"28H"); (6, W #"30H"); (7, W #"38H") ].
(** Arithmetic: number in the opcode, mnemonic and operands before the source. *)
Definition alu : list (Z * (str * list kind)) :=
  [ (0, (#"ADD", [W #"A"])); (1, (#"ADC", [W #"A"])); (2, (#"SUB", [])); (3, (#"SBC", [W #"A"]));
    (4, (#"AND", [])); (5, (#"XOR", [])); (6, (#"OR", [])); (7, (#"CP", [])) ].
Definition shifts : list (Z * str) :=
  [ (0, #"RLC"); (1, #"RRC"); (2, #"RL"); (3, #"RR"); (4, #"SLA"); (5, #"SRA"); (6, #"SWAP"); (7, #"SRL") ].
Definition bit_ops : list (Z * str) := [ (1, #"BIT"); (2, #"RES"); (3, #"SET") ].

Definition each {A} (l : list (Z * A)) (f : Z -> A -> form) : list form := map (fun '(i, a) => f i a) l.
Definition each2 {A B} (l : list (Z * A)) (m : list (Z * B)) (f : Z -> A -> Z -> B -> form) : list form :=
  flat_map (fun '(i, a) => map (fun '(j, b) => f i a j b) m) l.

Definition official : list form :=
  (* rows 0 to 3 *)
  [ (#"NOP", ([0x00], [])); (#"LD", ([0x08], paren [V Word] ++ [W #"SP"])); (#"STOP", ([0x10; 0], []));
    (#"JR", ([0x18], [V Disp])) ] ++
  each cond (fun i c => (#"JR", ([0x20 + 8 * i], [c; V Disp]))) ++
  each r16 (fun i r => (#"LD", ([0x01 + 16 * i], [r; V Word]))) ++
  each r16 (fun i r => (#"ADD", ([0x09 + 16 * i], [W #"HL"; r]))) ++
  each r16_ind (fun i r => (#"LD", ([0x02 + 16 * i], paren [r] ++ [W #"A"]))) ++
  each r16_ind (fun i r => (#"LD", ([0x0A + 16 * i], W #"A" :: paren [r]))) ++
  each r16 (fun i r => (#"INC", ([0x03 + 16 * i], [r]))) ++
  each r16 (fun i r => (#"DEC", ([0x0B + 16 * i], [r]))) ++
  each r8 (fun i r => (#"INC", ([0x04 + 8 * i], r))) ++
  each r8 (fun i r => (#"DEC", ([0x05 + 8 * i], r))) ++
  each r8 (fun i r => (#"LD", ([0x06 + 8 * i], r ++ [V Byte]))) ++
  [ (#"RLCA", ([0x07], [])); (#"RRCA", ([0x0F], [])); (#"RLA", ([0x17], [])); (#"RRA", ([0x1F], []));
    (#"DAA", ([0x27], [])); (#"CPL", ([0x2F], [])); (#"SCF", ([0x37], [])); (#"CCF", ([0x3F], [])) ] ++
  (* rows 4 to 7: 0x76 is not LD (HL),(HL) but HALT *)
  filter (fun '(_, (b, _)) => negb (hd 0 b =? 0x76))
    (each2 r8 r8 (fun i d j s => (#"LD", ([0x40 + 8 * i + j], d ++ s)))) ++
  [ (#"HALT", ([0x76], [])) ] ++
  (* rows 8 to B *)
  each2 alu r8 (fun i op j s => (fst op, ([0x80 + 8 * i + j], snd op ++ s))) ++
  (* rows C to F *)
  each alu (fun i op => (fst op, ([0xC6 + 8 * i], snd op ++ [V Byte]))) ++
  each cond (fun i c => (#"RET", ([0xC0 + 8 * i], [c]))) ++
  each cond (fun i c => (#"JP", ([0xC2 + 8 * i], [c; V Word]))) ++
  each cond (fun i c => (#"CALL", ([0xC4 + 8 * i], [c; V Word]))) ++
  each r16_stack (fun i r => (#"POP", ([0xC1 + 16 * i], [r]))) ++
  each r16_stack (fun i r => (#"PUSH", ([0xC5 + 16 * i], [r]))) ++
  each vector (fun i v => (#"RST", ([0xC7 + 8 * i], [v]))) ++
  [ (#"JP", ([0xC3], [V Word])); (#"RET", ([0xC9], [])); (#"CALL", ([0xCD], [V Word]));
    (#"RETI", ([0xD9], [])); (#"LDH", ([0xE0], paren [V Byte] ++ [W #"A"])); (#"LD", ([0xE0], paren [Page] ++ [W #"A"]));
    (#"LD", ([0xE2], paren [W #"C"] ++ [W #"A"])); (#"LD", ([0xE2], paren [W #"$FF00+C"] ++ [W #"A"]));
    (#"ADD", ([0xE8], [W #"SP"; V Disp])); (#"JP", ([0xE9], paren [W #"HL"]));
    (#"LD", ([0xEA], paren [Addr] ++ [W #"A"])); (#"LDH", ([0xF0], W #"A" :: paren [V Byte]));
    (#"LD", ([0xF0], W #"A" :: paren [Page])); (#"LD", ([0xF2], W #"A" :: paren [W #"C"])); (#"DI", ([0xF3], []));
    (#"LD", ([0xF9], [W #"SP"; W #"HL"])); (#"LD", ([0xFA], W #"A" :: paren [Addr])); (#"EI", ([0xFB], [])) ] ++
  (* after 0xCB *)
  each2 shifts r8 (fun i m j r => (m, ([0xCB; 8 * i + j], r))) ++
  flat_map (fun '(k, m) => each2 digit3 r8 (fun i d j r => (m, ([0xCB; 64 * k + 8 * i + j], d :: r)))) bit_ops.

(** Further notations that are accepted for the same instructions. *)
Definition informal : list form :=
  each r8 (fun j r => (#"CP", ([0xB8 + j], W #"A" :: r))) ++
  each r8 (fun j r => (#"OR", ([0xB0 + j], W #"A" :: r))) ++
  [ (#"OR", ([0xF6], [W #"A"; V Byte])); (#"XOR", ([0xAF], [W #"A"; W #"A"])); (#"XOR", ([0xEE], [W #"A"; V Byte]));
    (#"SUB", ([0xD6], [W #"A"; V Byte])); (#"SBC", ([0xDE], [V Byte])); (#"ADD", ([0x86], paren [W #"HL"]));
    (#"STOP", ([0x10; 0], [W #"0"])) ].

(** Parentheses may also be square brackets. *)
Definition squared (k : kind) : kind :=
  match k with
  | W ["("%char] => W #"["
  | W [")"%char] => W #"]"
  | k => k
  end.
Definition manual : list form :=
  let f := official ++ informal in f ++ map (fun '(m, (b, ks)) => (m, (b, map squared ks))) f.

(** Bytes and references of the instruction with mnemonic m and operands ops. *)
Definition encodes (s : st) (m : str) (ops : list str) (b : bytes) (ds : list labeldata) : Prop :=
  exists pre ks vs, In (m, (pre, ks)) manual /\ operands ks ops vs /\ laid_out gb_p s pre [] vs b ds.

(** Notations that are not read as the manual has it. *)
Inductive odd : str -> list str -> Prop :=
(** LD HL,SP+e and everything else with such a second word *)
| odd_stack a x rest : odd #"LD" (a :: (#"SP+" ++ x) :: rest)
| odd_stack_minus a x rest : odd #"LD" (a :: (#"SP-" ++ x) :: rest)
(** a store of A to one of the addresses $, F, 0 and + *)
| odd_store o t c a : In (upper t) [#"$"; #"F"; #"0"; #"+"] -> upper a = #"A" -> odd #"LD" [o; t; c; a]
(** LD A,($FF00+C) *)
| odd_load a o t c : upper a = #"A" -> upper t = #"$FF00+C" -> odd #"LD" [a; o; t; c]
(** shifts and bit operations on (H) and (L) *)
| odd_shift m o t c : In m (map snd shifts) -> In (upper t) [#"H"; #"L"] -> odd m [o; t; c]
| odd_bit m n o t c : In m (map snd bit_ops) -> In (upper t) [#"H"; #"L"] -> odd m [n; o; t; c].
