(** The Z80 instruction set, by the regularities of its opcode matrix. *)
From Verif Require Import Py Utils Tokenizer State Assembler SpecExec SpecCpu SpecByte.
Local Open Scope Z_scope.

(** Number notation: $ hexadecimal, % binary, little-endian. *)
Definition z_p : pcfg := PCfg [#"$"] [] [#"%"] [] [] [] [] [] false 0 false.

(** Words that are never numbers or names of labels. *)
Definition registers : list str :=
  [ #"A"; #"F"; #"B"; #"C"; #"D"; #"E"; #"H"; #"L"; #"I"; #"R"; #"AF"; #"BC"; #"DE"; #"HL"; #"SP"; #"PC";
    #"IX"; #"IY"; #"IXH"; #"IXL"; #"IYH"; #"IYL" ].

(** What may stand in an instruction: a given word in either case, a number or a name, an
    address in memory, or a displacement from an index register. *)
Inductive kind := W (w : str) | V (f : field) | Addr | X (r : str).
(** r+x or r-x, in either case *)
Inductive indexed : str -> str -> str -> Prop :=
| i_plus r t x : upper (firstn 3 t) = r ++ #"+" -> x = skipn 3 t -> indexed r t x
| i_minus r t x : upper (firstn 3 t) = r ++ #"-" -> x = skipn 2 t -> indexed r t x.
Definition index_token (t : str) : Prop := exists r x, In r [#"IX"; #"IY"] /\ indexed r t x.

Inductive operand : kind -> str -> list (field * str) -> Prop :=
| o_word w t : upper t = w -> operand (W w) t []
| o_value f t : ~ In (upper t) registers -> operand (V f) t [(f, t)]
| o_addr t : ~ In (upper t) registers -> ~ index_token t -> operand Addr t [(Word, t)]
| o_index r t x : indexed r t x -> operand (X r) t [(Index, x)].
Inductive operands : list kind -> list str -> list (field * str) -> Prop :=
| os_nil : operands [] [] []
| os_cons k ks t ts v vs : operand k t v -> operands ks ts vs -> operands (k :: ks) (t :: ts) (v ++ vs).

(** Mnemonic, bytes before and after the operand, operands. *)
Definition form : Type := str * (bytes * bytes * list kind).
Definition op (m : str) (code : Z) (ks : list kind) : form := (m, ([code], [], ks)).

Definition paren (ks : list kind) : list kind := W #"(" :: ks ++ [W #")"].
(** The operands numbered 0 to 7 (or 0 to 3) in the opcodes. *)
Definition r8 : list (Z * list kind) :=
  [ (0, [W #"B"]); (1, [W #"C"]); (2, [W #"D"]); (3, [W #"E"]); (4, [W #"H"]); (5, [W #"L"]);
    (6, paren [W #"HL"]); (7, [W #"A"]) ].
Definition r16 : list (Z * kind) := [ (0, W #"BC"); (1, W #"DE"); (2, W #"HL"); (3, W #"SP") ].
Definition r16_stack : list (Z * kind) := [ (0, W #"BC"); (1, W #"DE"); (2, W #"HL"); (3, W #"AF") ].
Definition cond : list (Z * kind) :=
  [ (0, W #"NZ"); (1, W #"Z"); (2, W #"NC"); (3, W #"C"); (4, W #"PO"); (5, W #"PE"); (6, W #"P"); (7, W #"M") ].
Definition digit3 : list (Z * kind) :=
  [ (0, W #"0"); (1, W #"1"); (2, W #"2"); (3, W #"3"); (4, W #"4"); (5, W #"5"); (6, W #"6"); (7, W #"7") ].
Definition vector : list (Z * kind) :=
  [ (0, W #"0H"); (1, W #"8H"); (2, W #"10H"); (3, W #"18H"); (4, W #"20H"); (5, W #"28H"); (6, W #"30H"); (7, W #"38H") ].
(** Arithmetic: number in the opcode, mnemonic and operands before the source. *)
Definition alu : list (Z * (str * list kind)) :=
  [ (0, (#"ADD", [W #"A"])); (1, (#"ADC", [W #"A"])); (2, (#"SUB", [])); (3, (#"SBC", [W #"A"]));
    (4, (#"AND", [])); (5, (#"XOR", [])); (6, (#"OR", [])); (7, (#"CP", [])) ].
(** 6 is not documented. *)
Definition shifts : list (Z * str) :=
  [ (0, #"RLC"); (1, #"RRC"); (2, #"RL"); (3, #"RR"); (4, #"SLA"); (5, #"SRA"); (6, #"SLL"); (7, #"SRL") ].
Definition bit_ops : list (Z * str) := [ (1, #"BIT"); (2, #"RES"); (3, #"SET") ].

Definition each {A} (l : list (Z * A)) (f : Z -> A -> form) : list form := map (fun '(i, a) => f i a) l.
Definition each2 {A B} (l : list (Z * A)) (m : list (Z * B)) (f : Z -> A -> Z -> B -> form) : list form :=
  flat_map (fun '(i, a) => map (fun '(j, b) => f i a j b) m) l.

(** Opcodes of one byte *)
Definition main_page : list form :=
  [ op #"NOP" 0x00 []; op #"EX" 0x08 [W #"AF"; W #"AF'"]; op #"DJNZ" 0x10 [V Disp]; op #"JR" 0x18 [V Disp] ] ++
  each (firstn 4 cond) (fun i c => op #"JR" (0x20 + 8 * i) [c; V Disp]) ++
  each r16 (fun i r => op #"LD" (0x01 + 16 * i) [r; V Word]) ++
  each r16 (fun i r => op #"ADD" (0x09 + 16 * i) [W #"HL"; r]) ++
  [ op #"LD" 0x02 (paren [W #"BC"] ++ [W #"A"]); op #"LD" 0x12 (paren [W #"DE"] ++ [W #"A"]);
    op #"LD" 0x22 (paren [Addr] ++ [W #"HL"]); op #"LD" 0x32 (paren [Addr] ++ [W #"A"]);
    op #"LD" 0x0A (W #"A" :: paren [W #"BC"]); op #"LD" 0x1A (W #"A" :: paren [W #"DE"]);
    op #"LD" 0x2A (W #"HL" :: paren [Addr]); op #"LD" 0x3A (W #"A" :: paren [Addr]) ] ++
  each r16 (fun i r => op #"INC" (0x03 + 16 * i) [r]) ++
  each r16 (fun i r => op #"DEC" (0x0B + 16 * i) [r]) ++
  each r8 (fun i r => op #"INC" (0x04 + 8 * i) r) ++
  each r8 (fun i r => op #"DEC" (0x05 + 8 * i) r) ++
  each r8 (fun i r => op #"LD" (0x06 + 8 * i) (r ++ [V Byte])) ++
  [ op #"RLCA" 0x07 []; op #"RRCA" 0x0F []; op #"RLA" 0x17 []; op #"RRA" 0x1F [];
    op #"DAA" 0x27 []; op #"CPL" 0x2F []; op #"SCF" 0x37 []; op #"CCF" 0x3F [] ] ++
  (* 76 is not LD (HL),(HL) but HALT *)
  filter (fun '(_, (b, _, _)) => negb (hd 0 b =? 0x76)) (each2 r8 r8 (fun i d j s => op #"LD" (0x40 + 8 * i + j) (d ++ s))) ++
  [ op #"HALT" 0x76 [] ] ++
  each2 alu r8 (fun i o j s => op (fst o) (0x80 + 8 * i + j) (snd o ++ s)) ++
  each alu (fun i o => op (fst o) (0xC6 + 8 * i) (snd o ++ [V Byte])) ++
  each cond (fun i c => op #"RET" (0xC0 + 8 * i) [c]) ++
  each cond (fun i c => op #"JP" (0xC2 + 8 * i) [c; V Word]) ++
  each cond (fun i c => op #"CALL" (0xC4 + 8 * i) [c; V Word]) ++
  each r16_stack (fun i r => op #"POP" (0xC1 + 16 * i) [r]) ++
  each r16_stack (fun i r => op #"PUSH" (0xC5 + 16 * i) [r]) ++
  each vector (fun i v => op #"RST" (0xC7 + 8 * i) [v]) ++
  [ op #"JP" 0xC3 [V Word]; op #"RET" 0xC9 []; op #"CALL" 0xCD [V Word]; op #"OUT" 0xD3 (paren [V Byte] ++ [W #"A"]);
    op #"EXX" 0xD9 []; op #"IN" 0xDB (W #"A" :: paren [V Byte]); op #"EX" 0xE3 (paren [W #"SP"] ++ [W #"HL"]);
    op #"JP" 0xE9 (paren [W #"HL"]); op #"EX" 0xEB [W #"DE"; W #"HL"]; op #"DI" 0xF3 [];
    op #"LD" 0xF9 [W #"SP"; W #"HL"]; op #"EI" 0xFB [] ].

(** After CB *)
Definition bit_page : list form :=
  each2 shifts r8 (fun i m j r => op m (8 * i + j) r) ++
  flat_map (fun '(k, m) => each2 digit3 r8 (fun i d j r => op m (64 * k + 8 * i + j) (d :: r))) bit_ops.

(** After ED *)
Definition block_ops : list (Z * (str * str)) :=
  [ (0, (#"LD", #"LD")); (1, (#"CP", #"CP")); (2, (#"IN", #"IN")); (3, (#"OUT", #"OT")) ].
Definition extended_page : list form :=
  each (filter (fun '(i, _) => negb (i =? 6)) r8) (fun i r => op #"IN" (0x40 + 8 * i) (r ++ paren [W #"C"])) ++
  each (filter (fun '(i, _) => negb (i =? 6)) r8) (fun i r => op #"OUT" (0x41 + 8 * i) (paren [W #"C"] ++ r)) ++
  each r16 (fun i r => op #"SBC" (0x42 + 16 * i) [W #"HL"; r]) ++
  each r16 (fun i r => op #"ADC" (0x4A + 16 * i) [W #"HL"; r]) ++
  (* those with HL have shorter codes *)
  each (filter (fun '(i, _) => negb (i =? 2)) r16) (fun i r => op #"LD" (0x43 + 16 * i) (paren [Addr] ++ [r])) ++
  each (filter (fun '(i, _) => negb (i =? 2)) r16) (fun i r => op #"LD" (0x4B + 16 * i) (r :: paren [Addr])) ++
  [ op #"NEG" 0x44 []; op #"RETN" 0x45 []; op #"RETI" 0x4D []; op #"IM" 0x46 [W #"0"]; op #"IM" 0x56 [W #"1"];
    op #"IM" 0x5E [W #"2"]; op #"LD" 0x47 [W #"I"; W #"A"]; op #"LD" 0x4F [W #"R"; W #"A"];
    op #"LD" 0x57 [W #"A"; W #"I"]; op #"LD" 0x5F [W #"A"; W #"R"]; op #"RRD" 0x67 []; op #"RLD" 0x6F [] ] ++
  each block_ops (fun i n => op (fst n ++ #"I") (0xA0 + i) []) ++
  each block_ops (fun i n => op (fst n ++ #"D") (0xA8 + i) []) ++
  each block_ops (fun i n => op (snd n ++ #"IR") (0xB0 + i) []) ++
  each block_ops (fun i n => op (snd n ++ #"DR") (0xB8 + i) []) ++
  (* not documented *)
  [ op #"OUT" 0x71 (paren [W #"C"] ++ [W #"0"]); op #"IM" 0x4E [W #"0/1"] ].

(** DD (FD) before an instruction turns (HL) into (IX+d), and if there is no (HL), HL into IX,
    H into IXH, L into IXL.  JP (HL) has no displacement, EX DE,HL is not affected.  LD
    (HL),n would have two operands: it is not covered here. *)
Fixpoint memory (ix : str) (ks : list kind) : option (list kind) :=
  match ks with
  | W ["("%char] :: W ["H"%char; "L"%char] :: r => Some (W #"(" :: X ix :: r)
  | k :: r => option_map (cons k) (memory ix r)
  | [] => None
  end.
Definition register (ix : str) (k : kind) : kind :=
  match k with
  | W ["H"%char; "L"%char] => W ix
  | W ["H"%char] => W (ix ++ #"H")
  | W ["L"%char] => W (ix ++ #"L")
  | k => k
  end.
Definition mentions_hl (ks : list kind) : bool :=
  existsb (fun k => match k with W w => str_in w [#"HL"; #"H"; #"L"] | _ => false end) ks.
Definition two_operands (ks : list kind) : bool :=
  match rev ks with V Byte :: W [")"%char] :: _ => true | _ => false end.
Definition with_prefix (prefix : Z) (ix : str) (f : form) : list form :=
  let '(m, (pre, suf, ks)) := f in
  if str_eqb m #"EX" && match ks with W w :: _ => str_eqb w #"DE" | _ => false end then []
  else match memory ix ks with
       | Some ks' =>
           if str_eqb m #"JP" then [(m, (prefix :: pre, suf, map (register ix) ks))]
           else if two_operands ks then [] else [(m, (prefix :: pre, suf, ks'))]
       | None => if mentions_hl ks then [(m, (prefix :: pre, suf, map (register ix) ks))] else []
       end.
(** With CB the displacement comes before the code. *)
Definition with_prefix_bit (prefix : Z) (ix : str) (f : form) : list form :=
  let '(m, (pre, suf, ks)) := f in
  match memory ix ks with Some ks' => [(m, ([prefix; 0xCB], pre, ks'))] | None => [] end.

Definition manual : list form :=
  main_page ++
  map (fun '(m, (pre, suf, ks)) => (m, (0xCB :: pre, suf, ks))) bit_page ++
  map (fun '(m, (pre, suf, ks)) => (m, (0xED :: pre, suf, ks))) extended_page ++
  flat_map (with_prefix 0xDD #"IX") main_page ++ flat_map (with_prefix 0xFD #"IY") main_page ++
  flat_map (with_prefix_bit 0xDD #"IX") bit_page ++ flat_map (with_prefix_bit 0xFD #"IY") bit_page.

(** Bytes and references of the instruction with mnemonic m and operands ops. *)
Definition encodes (s : st) (m : str) (ops : list str) (b : bytes) (ds : list labeldata) : Prop :=
  exists pre suf ks vs, In (m, (pre, suf, ks)) manual /\ operands ks ops vs /\ laid_out z_p s pre suf vs b ds.

(** Notations that are not read as the manual has it. *)
Inductive odd : str -> list str -> Prop :=
(** a word with a blank in it, which no source text contains *)
| odd_blank m ops t : In t ops -> In " "%char t -> odd m ops
(** loads of A, or of two bytes, from (IX+d) and stores of them; LD (IX+d),n *)
| odd_load a o t c : In (upper a) [#"A"; #"HL"; #"BC"; #"DE"; #"SP"; #"IX"; #"IY"] -> index_token t -> odd #"LD" [a; o; t; c]
| odd_store o t c a : In (upper a) [#"A"; #"HL"; #"BC"; #"DE"; #"SP"; #"IX"; #"IY"] \/ ~ In (upper a) registers ->
    index_token t -> odd #"LD" [o; t; c; a]
(** BIT n,(IX+d) *)
| odd_bit n o t c : index_token t -> odd #"BIT" [n; o; t; c].
