(** Model of necroassembler/cpu/lr35902.py *)
From Verif Require Import Py Utils Tokenizer State Assembler Instr.
Local Open Scope Z_scope.

(** cpu/lr35902.py:5-7 REGS8, REGS16, CONDITIONS *)
Definition regs8 : list str := [#"A"; #"F"; #"B"; #"C"; #"D"; #"E"; #"H"; #"L"].
(** cpu/lr35902.py:6 *)
Definition regs16 : list str := [#"AF"; #"BC"; #"DE"; #"HL"; #"HL+"; #"HL-"; #"SP"].
(** cpu/lr35902.py:7 *)
Definition conditions : list str := [#"Z"; #"C"; #"NZ"; #"NC"].

(** cpu/lr35902.py:10-11 _is_value *)
Definition lr_value (token : str) : bool :=
  negb (str_in (upper token) (regs8 ++ regs16 ++ conditions ++ [#"("; #")"; #"["; #"]"])).
(** cpu/lr35902.py:14-15 _is_number: str.isdigit *)
Definition lr_number (token : str) : bool := isdigit token.
(** cpu/lr35902.py:18-19 _is_ldh *)
Definition lr_ldh (token : str) : bool :=
  starts_with #"$FF00+" token && negb (str_eqb token #"$FF00+C").

(** cpu/lr35902.py:29-33 class attributes *)
Definition lr_p : pcfg := PCfg [#"$"] [] [#"%"] [] [#"@"] [] [] [] false 0 false.

(** The three kinds of operands: _data8, _rel8, _data16. cpu/lr35902.py:51-66 *)
Inductive oper := D8 | R8 | D16.
(** cpu/lr35902.py:51-66 _data8, _rel8, _data16 *)
Definition lr_operand (o : oper) (arg : str) : M bytes :=
  match o with
  | D8 =>
      let! value := parse_integer_or_label lr_p (LabelData arg 1 8 0 1 1 None None None) false in
      lift (pack_byte [Some value])
  | R8 =>
      let! s := get in
      let! value := parse_integer_or_label lr_p (LabelData arg 1 8 (pc s + 2) 1 1 None None None) false in
      lift (pack_8s [Some value])
  | D16 =>
      let! value := parse_integer_or_label lr_p (LabelData arg 2 16 0 1 1 None None None) false in
      lift (pack_le16u [Some value])
  end.

(** str.replace of one character; cpu/lr35902.py:69 *)
Definition replace_chr (c : ascii) (by_ s : str) : str :=
  flat_map (fun x => if Ascii.eqb x c then by_ else [x]) s.
(** cpu/lr35902.py:68-69 _reg_name *)
Definition reg_name (reg : str) : str :=
  replace_chr "-"%char #"_minus" (replace_chr "+"%char #"_plus" (lower reg)).

(** One branch of the chains of tests in _build_opcode and _build_cb_opcode: the
    patterns of which one must match, a key which must be among the keyword arguments
    (the nested tests), the key of the opcode and the operand to be read first: its
    kind, token and number of characters dropped from it. cpu/lr35902.py:71-196 *)
Inductive piece := Lit (s : str) | Reg (i : nat) | Tok (i : nat).
(** cpu/lr35902.py:71-196: one test and its return *)
Record branch := Br {
  br_pats : list (list pattern);
  br_needs : option (list piece);
  br_key : list piece;
  br_operand : option (oper * nat * nat) }.
(** cpu/lr35902.py:76-84, 95-193: the key given to kwargs *)
Definition key_of (tokens : list str) (ps : list piece) : str :=
  concat (map (fun p => match p with
                        | Lit s => s
                        | Reg i => reg_name (nth i tokens [])
                        | Tok i => nth i tokens []
                        end) ps).
(** cpu/lr35902.py:71-196: the condition of one branch *)
Definition br_holds (kwargs : list (str * Z)) (tokens : list str) (b : branch) : bool :=
  existsb (imatch tokens 1) (br_pats b) &&
  match br_needs b with Some k => dmem str_eqb kwargs (key_of tokens k) | None => true end.

(** kwargs[k]; cpu/lr35902.py:76-193 *)
Definition lr_kwarg (kwargs : list (str * Z)) (k : str) : M Z :=
  match dget str_eqb kwargs k with Some v => ret v | None => praise KeyError end.
(** cpu/lr35902.py:86-87 and 195-196 except KeyError *)
Definition lr_except_key_error {A} (m : M A) : M A :=
  fun s => match m s with
           | (s', Err (PExc KeyError)) => (s', Err (AExc InvalidOpCodeArguments))
           | r => r
           end.

(** The chains of tests: the first branch that holds is taken; its operand is read
    before the key is looked up, as the calls of Instruction.apply come first.
    cpu/lr35902.py:71-196 *)
Definition build (pre : list Z) (bs : list branch) (kwargs : list (str * Z)) (tokens : list str) : M (option bytes) :=
  lr_except_key_error (
    match find (br_holds kwargs tokens) bs with
    | None => ret None
    | Some b =>
        let! operand := match br_operand b with
                        | None => ret []
                        | Some (o, i, d) => let! t := tok_at tokens i in lr_operand o (skipn d t)
                        end in
        let! code := lr_kwarg kwargs (key_of tokens (br_key b)) in
        let! b := lift (pack_byte (map Some (pre ++ [code]))) in
        ret (Some (b ++ operand))
    end).

(** cpu/lr35902.py:5 *)
Definition R8s := PTuple regs8.
(** cpu/lr35902.py:6 *)
Definition R16s := PTuple regs16.
(** cpu/lr35902.py:7 *)
Definition CCs := PTuple conditions.
(** cpu/lr35902.py:22 *)
Definition Val := PFun lr_value.
(** cpu/lr35902.py:23 *)
Definition Num := PFun lr_number.
(** cpu/lr35902.py:24 *)
Definition Ldh := PFun lr_ldh.
(** ( ... ) or [ ... ]; cpu/lr35902.py:77, 82 *)
Definition brackets (f : pattern -> pattern -> list pattern) : list (list pattern) :=
  [f (PStr #"(") (PStr #")"); f (PStr #"[") (PStr #"]")].

(** cpu/lr35902.py:71-87 _build_cb_opcode *)
Definition cb_branches : list branch :=
  [ Br [[R8s]] None [Reg 1] None;
    Br (brackets (fun o c => [o; PStr #"HL"; c])) None [Lit #"ind_hl"] None;
    Br [[Num; R8s]] None [Lit #"b"; Tok 1; Lit #"_"; Reg 2] None;
    Br (brackets (fun o c => [Num; o; PStr #"HL"; c])) None [Lit #"b"; Tok 1; Lit #"_ind_hl"] None ].
(** cpu/lr35902.py:71-87 _build_cb_opcode *)
Definition build_cb_opcode (kwargs : list (str * Z)) : list str -> M (option bytes) :=
  build [0xCB] cb_branches kwargs.

(** cpu/lr35902.py:89-196 _build_opcode; [conditional] and [relative] are two of the
    keyword arguments; no key that is looked up equals their names. *)
Definition lr_branches (conditional relative : bool) : list branch :=
  (if conditional then
    [ (* 91-97 *)
      (if relative then Br [[CCs; Val]] None [Reg 1; Lit #"_r8"] (Some (R8, 2, 0)%nat)
       else Br [[CCs; Val]] None [Reg 1; Lit #"_a16"] (Some (D16, 2, 0)%nat));
      (* 99-101 *)
      Br [[CCs]] None [Reg 1] None ]
   else []) ++
  [ (* 103-104 *)
    Br (brackets (fun o c => [o; PStr #"$FF00+C"; c; PStr #"A"])) None [Lit #"ind_c_a"] None;
    (* 106-108 *)
    Br (brackets (fun o c => [o; Ldh; c; PStr #"A"])) None [Lit #"ind_a8_a"] (Some (D8, 2, 6)%nat);
    (* 110-112 *)
    Br (brackets (fun o c => [PStr #"A"; o; Ldh; c])) None [Lit #"a_ind_a8"] (Some (D8, 3, 6)%nat);
    (* 114-116 *)
    Br [[R8s; R8s]] None [Reg 1; Lit #"_"; Reg 2] None;
    (* 118-120 *)
    Br [[R16s; R16s]] None [Reg 1; Lit #"_"; Reg 2] None;
    (* 122-127 *)
    Br [[R16s; Val]] (Some [Reg 1; Lit #"_r8"]) [Reg 1; Lit #"_r8"] (Some (R8, 2, 0)%nat);
    Br [[R16s; Val]] None [Reg 1; Lit #"_d16"] (Some (D16, 2, 0)%nat);
    (* 129-132 *)
    Br (brackets (fun o c => [o; R16s; c; R8s])) None [Lit #"ind_"; Reg 2; Lit #"_"; Reg 4] None;
    (* 134-136 *)
    Br [[R8s]] None [Reg 1] None;
    (* 138-140 *)
    Br [[R8s; Val]] None [Reg 1; Lit #"_d8"] (Some (D8, 2, 0)%nat);
    (* 142-144 *)
    Br [[R16s]] None [Reg 1] None;
    (* 146-149 *)
    Br (brackets (fun o c => [R8s; o; R16s; c])) None [Reg 1; Lit #"_ind_"; Reg 3] None;
    (* 151-154 *)
    Br (brackets (fun o c => [R8s; o; R8s; c])) None [Reg 1; Lit #"_ind_"; Reg 3] None;
    (* 156-159 *)
    Br (brackets (fun o c => [R8s; o; Val; c])) None [Reg 1; Lit #"_ind_a16"] (Some (D16, 3, 0)%nat);
    (* 161-164 *)
    Br (brackets (fun o c => [o; R16s; c])) None [Lit #"ind_"; Reg 2] None;
    (* 166-169 *)
    Br (brackets (fun o c => [o; Val; c; R16s])) None [Lit #"ind_a16_"; Reg 4] (Some (D16, 2, 0)%nat);
    (* 171-174 *)
    Br (brackets (fun o c => [o; Val; c; R8s])) None [Lit #"ind_a16_"; Reg 4] (Some (D16, 2, 0)%nat);
    (* 176-179 *)
    Br (brackets (fun o c => [o; R16s; c; Val])) None [Lit #"ind_"; Reg 2; Lit #"_d8"] (Some (D8, 4, 0)%nat);
    (* 181-193 *)
    Br [[Val]] (Some [Lit #"r8"]) [Lit #"r8"] (Some (R8, 1, 0)%nat);
    Br [[Val]] (Some [Lit #"d8"]) [Lit #"d8"] (Some (D8, 1, 0)%nat);
    Br [[Val]] (Some [Lit #"d16"]) [Lit #"d16"] (Some (D16, 1, 0)%nat);
    Br [[Val]] (Some [Lit #"a16"]) [Lit #"a16"] (Some (D16, 1, 0)%nat) ].
(** cpu/lr35902.py:89-196 _build_opcode *)
Definition build_opcode (conditional relative : bool) (kwargs : list (str * Z)) : list str -> M (option bytes) :=
  build [] (lr_branches conditional relative) kwargs.

(** cpu/lr35902.py:198-205 _ldh *)
Definition lr_ldh_op (tokens : list str) : M (option bytes) :=
  if existsb (imatch tokens 1) (brackets (fun o c => [o; Val; c; PStr #"A"])) then
    let! t := tok_at tokens 2 in
    let! a8 := lr_operand D8 t in
    let! b := lift (pack_byte [Some 0xE0]) in ret (Some (b ++ a8))
  else if existsb (imatch tokens 1) (brackets (fun o c => [PStr #"A"; o; Val; c])) then
    let! t := tok_at tokens 3 in
    let! a8 := lr_operand D8 t in
    let! b := lift (pack_byte [Some 0xF0]) in ret (Some (b ++ a8))
  else ret None.

(** cpu/lr35902.py:207-217 _ld; the keyword arguments come from the table below *)
Definition lr_ld (kwargs : list (str * Z)) (tokens : list str) : M (option bytes) :=
  let stack (arg : str) : M (option bytes) :=
    let! value := lr_operand R8 arg in
    let! b := lift (pack_byte [Some 0xF8]) in ret (Some (b ++ value)) in
  match tokens with
  | _ :: _ :: t2 :: _ =>
      if starts_with #"SP+" t2 then stack (skipn 3 t2)
      else if starts_with #"SP-" t2 then stack (skipn 2 t2)
      else build_opcode false false kwargs tokens
  | _ => build_opcode false false kwargs tokens
  end.

(** cpu/lr35902.py:689-697 _ret *)
Definition lr_ret (kwargs : list (str * Z)) (tokens : list str) : M (option bytes) :=
  if Nat.eqb (length tokens) 1 then ret (Some [0xC9]) else build_opcode true false kwargs tokens.

(** cpu/lr35902.py:813-816 _stop *)
Definition lr_stop (tokens : list str) : M (option bytes) :=
  if Nat.eqb (length tokens) 1 || imatch tokens 1 [PStr #"0"] then
    let! b := lift (pack_byte [Some 0x10; Some 0]) in ret (Some b)
  else ret None.

(** cpu/lr35902.py:818-823 _rst *)
Definition rst_vectors : list (str * Z) :=
  [ (#"00H", 0xC7); (#"08H", 0xCF); (#"10H", 0xD7); (#"18H", 0xDF);
    (#"20H", 0xE7); (#"28H", 0xEF); (#"30H", 0xF7); (#"38H", 0xFF) ].
(** cpu/lr35902.py:819-823 _rst *)
Definition lr_rst (tokens : list str) : M (option bytes) :=
  if imatch tokens 1 [PTuple (map fst rst_vectors)] then
    let! t := tok_at tokens 1 in
    let! v := lr_kwarg rst_vectors (upper t) in
    let! b := lift (pack_byte [Some v]) in ret (Some b)
  else ret None.

(** cpu/lr35902.py:207-811: the keyword arguments of the opcode methods that call
    _build_opcode, with conditional and relative; each entry with the line of its method *)
Definition lr_table : list (str * (bool * bool * list (str * Z))) :=
  [ (* 310 *) (#"INC", (false, false,
      [(#"ind_hl", 0x34); (#"a", 0x3C); (#"d", 0x14); (#"bc", 0x03); (#"b", 0x04);
       (#"c", 0x0C); (#"e", 0x1c); (#"hl", 0x23); (#"h", 0x24); (#"l", 0x2C);
       (#"de", 0x13); (#"sp", 0x33)]));
    (* 326 *) (#"JP", (true, false,
      [(#"c_a16", 0xDA); (#"z_a16", 0xCA); (#"nc_a16", 0xD2); (#"nz_a16", 0xC2); (#"ind_hl", 0xE9);
       (#"a16", 0xC3)]));
    (* 337 *) (#"CALL", (true, false,
      [(#"c_a16", 0xDC); (#"nc_a16", 0xD4); (#"z_a16", 0xCC); (#"nz_a16", 0xC4); (#"a16", 0xCD)]));
    (* 347 *) (#"XOR", (false, false,
      [(#"b", 0xA8); (#"c", 0xA9); (#"d", 0xAA); (#"e", 0xAb); (#"h", 0xAC);
       (#"l", 0xAD); (#"ind_hl", 0xAE); (#"a_d8", 0xEE); (#"d8", 0xEE); (#"a", 0xAF);
       (#"a_a", 0xAF)]));
    (* 360 *) (#"CP", (false, false,
      [(#"d8", 0xFE); (#"a_b", 0xB8); (#"b", 0xB8); (#"a_c", 0xB9); (#"c", 0xB9);
       (#"a_d", 0xBA); (#"d", 0xBA); (#"a_e", 0xBB); (#"e", 0xBB); (#"a_h", 0xBC);
       (#"h", 0xBC); (#"a_l", 0xBD); (#"l", 0xBD); (#"a_ind_hl", 0xBE); (#"ind_hl", 0xBE);
       (#"a_a", 0xBF); (#"a", 0xBF)]));
    (* 673 *) (#"DEC", (false, false,
      [(#"ind_hl", 0x35); (#"b", 0x05); (#"a", 0x3D); (#"c", 0x0D); (#"d", 0x15);
       (#"e", 0x1D); (#"h", 0x25); (#"l", 0x2D); (#"bc", 0x0B); (#"de", 0x1B);
       (#"hl", 0x2B); (#"sp", 0x3B)]));
    (* 700 *) (#"AND", (false, false,
      [(#"b", 0xA0); (#"c", 0xA1); (#"d", 0xA2); (#"e", 0xA3); (#"h", 0xA4);
       (#"l", 0xA5); (#"ind_hl", 0xA6); (#"a", 0xA7); (#"d8", 0xE6)]));
    (* 713 *) (#"OR", (false, false,
      [(#"a_b", 0xB0); (#"b", 0xB0); (#"a_c", 0xB1); (#"c", 0xB1); (#"a_d", 0xB2);
       (#"d", 0xB2); (#"a_e", 0xB3); (#"e", 0xB3); (#"a_h", 0xB4); (#"h", 0xB4);
       (#"a_l", 0xB5); (#"l", 0xB5); (#"a_ind_hl", 0xB6); (#"ind_hl", 0xB6); (#"a_d8", 0xF6);
       (#"d8", 0xF6); (#"a_a", 0xB7); (#"a", 0xB7)]));
    (* 726 *) (#"JR", (true, true,
      [(#"z_r8", 0x28); (#"c_r8", 0x38); (#"r8", 0x18); (#"nc_r8", 0x30); (#"nz_r8", 0x20)]));
    (* 737 *) (#"SUB", (false, false,
      [(#"b", 0x90); (#"c", 0x91); (#"d", 0x92); (#"e", 0x93); (#"h", 0x94);
       (#"l", 0x95); (#"ind_hl", 0x96); (#"a", 0x97); (#"a_d8", 0xD6); (#"d8", 0xD6)]));
    (* 750 *) (#"PUSH", (false, false,
      [(#"bc", 0xC5); (#"hl", 0xE5); (#"af", 0xF5); (#"de", 0xD5)]));
    (* 758 *) (#"POP", (false, false,
      [(#"bc", 0xC1); (#"hl", 0xE1); (#"af", 0xF1); (#"de", 0xD1)]));
    (* 766 *) (#"ADD", (false, false,
      [(#"a_b", 0x80); (#"a_c", 0x81); (#"a_d", 0x82); (#"a_e", 0x83); (#"a_h", 0x84);
       (#"a_l", 0x85); (#"a_a", 0x87); (#"ind_hl", 0x86); (#"hl_bc", 0x09); (#"hl_de", 0x19);
       (#"hl_hl", 0x29); (#"hl_sp", 0x39); (#"a_d8", 0xC6); (#"sp_r8", 0xE8); (#"a_ind_hl", 0x86)]));
    (* 785 *) (#"ADC", (false, false,
      [(#"a_b", 0x88); (#"a_c", 0x89); (#"a_d", 0x8A); (#"a_e", 0x8B); (#"a_h", 0x8C);
       (#"a_l", 0x8D); (#"a_ind_hl", 0x8E); (#"a_a", 0x8F); (#"a_d8", 0xCE)]));
    (* 799 *) (#"SBC", (false, false,
      [(#"a_b", 0x98); (#"a_c", 0x99); (#"a_d", 0x9A); (#"a_e", 0x9B); (#"a_h", 0x9C);
       (#"a_l", 0x9D); (#"a_ind_hl", 0x9E); (#"a_a", 0x9F); (#"a_d8", 0xDE); (#"d8", 0xDE)])) ].
(** cpu/lr35902.py:207 *)
Definition lr_ld_args : list (str * Z) :=
      [(#"bc_d16", 0x01); (#"ind_bc_a", 0x02); (#"b_d8", 0x06); (#"h_d8", 0x26); (#"ind_a16_sp", 0x08);
       (#"a_ind_bc", 0x0A); (#"c_d8", 0x0E); (#"c_ind_hl", 0x4E); (#"a_ind_hl_plus", 0x2A); (#"hl_d16", 0x21);
       (#"de_d16", 0x11); (#"b_a", 0x47); (#"b_b", 0x40); (#"b_c", 0x41); (#"b_d", 0x42);
       (#"b_e", 0x43); (#"b_h", 0x44); (#"b_l", 0x45); (#"b_ind_hl", 0x46); (#"c_b", 0x48);
       (#"c_c", 0x49); (#"c_d", 0x4A); (#"c_e", 0x4B); (#"c_h", 0x4C); (#"c_l", 0x4D);
       (#"d_b", 0x50); (#"d_c", 0x51); (#"d_d", 0x52); (#"d_e", 0x53); (#"d_h", 0x54);
       (#"d_l", 0x55); (#"d_ind_hl", 0x56); (#"e_b", 0x58); (#"e_c", 0x59); (#"e_d", 0x5A);
       (#"e_e", 0x5B); (#"e_l", 0x5D); (#"e_h", 0x5C); (#"l_b", 0x68); (#"l_c", 0x69);
       (#"l_d", 0x6a); (#"l_e", 0x6B); (#"l_h", 0x6C); (#"l_l", 0x6d); (#"l_ind_hl", 0x6e);
       (#"l_a", 0x6f); (#"h_b", 0x60); (#"h_c", 0x61); (#"h_d", 0x62); (#"h_e", 0x63);
       (#"h_h", 0x64); (#"h_l", 0x65); (#"h_ind_hl", 0x66); (#"e_ind_hl", 0x5E); (#"e_a", 0x5F);
       (#"ind_a16_a", 0xEA); (#"a_d8", 0x3E); (#"a_ind_a16", 0xFA); (#"ind_de_a", 0x12); (#"ind_hl_minus_a", 0x32);
       (#"ind_hl_plus_a", 0x22); (#"d_d8", 0x16); (#"d_a", 0x57); (#"a_d", 0x7A); (#"ind_hl_d8", 0x36);
       (#"ind_c_a", 0xE2); (#"ind_hl_a", 0x77); (#"ind_a8_a", 0xE0); (#"a_ind_de", 0x1A); (#"a_ind_hl_minus", 0x3A);
       (#"a_e", 0x7B); (#"l_d8", 0x2E); (#"h_a", 0x67); (#"e_d8", 0x1E); (#"a_ind_a8", 0xF0);
       (#"a_h", 0x7C); (#"c_a", 0x4F); (#"a_l", 0x7D); (#"a_b", 0x78); (#"a_c", 0x79);
       (#"a_ind_hl", 0x7E); (#"a_a", 0x7F); (#"ind_hl_b", 0x70); (#"ind_hl_c", 0x71); (#"ind_hl_d", 0x72);
       (#"ind_hl_e", 0x73); (#"ind_hl_h", 0x74); (#"ind_hl_l", 0x75); (#"a_ind_c", 0xF2); (#"sp_hl", 0xF9);
       (#"sp_d16", 0x31)].
(** cpu/lr35902.py:689 *)
Definition lr_ret_args : list (str * Z) :=
      [(#"c", 0xD8); (#"nc", 0xD0); (#"z", 0xC8); (#"nz", 0xC0)].
(** cpu/lr35902.py:373-671: those that call _build_cb_opcode *)
Definition lr_cb_table : list (str * list (str * Z)) :=
  [ (* 373 *) (#"BIT",
      [(#"b0_b", 0x40); (#"b0_c", 0x41); (#"b0_d", 0x42); (#"b0_e", 0x43); (#"b0_h", 0x44);
       (#"b0_l", 0x45); (#"b0_ind_hl", 0x46); (#"b0_a", 0x47); (#"b1_b", 0x48); (#"b1_c", 0x49);
       (#"b1_d", 0x4A); (#"b1_e", 0x4B); (#"b1_h", 0x4C); (#"b1_l", 0x4D); (#"b1_ind_hl", 0x4E);
       (#"b1_a", 0x4F); (#"b2_b", 0x50); (#"b2_c", 0x51); (#"b2_d", 0x52); (#"b2_e", 0x53);
       (#"b2_h", 0x54); (#"b2_l", 0x55); (#"b2_ind_hl", 0x56); (#"b2_a", 0x57); (#"b3_b", 0x58);
       (#"b3_c", 0x59); (#"b3_d", 0x5A); (#"b3_e", 0x5B); (#"b3_h", 0x5C); (#"b3_l", 0x5D);
       (#"b3_ind_hl", 0x5E); (#"b3_a", 0x5F); (#"b4_b", 0x60); (#"b4_c", 0x61); (#"b4_d", 0x62);
       (#"b4_e", 0x63); (#"b4_h", 0x64); (#"b4_l", 0x65); (#"b4_ind_hl", 0x66); (#"b4_a", 0x67);
       (#"b5_b", 0x68); (#"b5_c", 0x69); (#"b5_d", 0x6A); (#"b5_e", 0x6B); (#"b5_h", 0x6C);
       (#"b5_l", 0x6D); (#"b5_ind_hl", 0x6E); (#"b5_a", 0x6F); (#"b6_b", 0x70); (#"b6_c", 0x71);
       (#"b6_d", 0x72); (#"b6_e", 0x73); (#"b6_h", 0x74); (#"b6_l", 0x75); (#"b6_ind_hl", 0x76);
       (#"b6_a", 0x77); (#"b7_b", 0x78); (#"b7_c", 0x79); (#"b7_d", 0x7A); (#"b7_e", 0x7B);
       (#"b7_h", 0x7C); (#"b7_l", 0x7D); (#"b7_ind_hl", 0x7E); (#"b7_a", 0x7F)]);
    (* 441 *) (#"RES",
      [(#"b0_b", 0x80); (#"b0_c", 0x81); (#"b0_d", 0x82); (#"b0_e", 0x83); (#"b0_h", 0x84);
       (#"b0_l", 0x85); (#"b0_ind_hl", 0x86); (#"b0_a", 0x87); (#"b1_b", 0x88); (#"b1_c", 0x89);
       (#"b1_d", 0x8A); (#"b1_e", 0x8B); (#"b1_h", 0x8C); (#"b1_l", 0x8D); (#"b1_ind_hl", 0x8E);
       (#"b1_a", 0x8F); (#"b2_b", 0x90); (#"b2_c", 0x91); (#"b2_d", 0x92); (#"b2_e", 0x93);
       (#"b2_h", 0x94); (#"b2_l", 0x95); (#"b2_ind_hl", 0x96); (#"b2_a", 0x97); (#"b3_b", 0x98);
       (#"b3_c", 0x99); (#"b3_d", 0x9A); (#"b3_e", 0x9B); (#"b3_h", 0x9C); (#"b3_l", 0x9D);
       (#"b3_ind_hl", 0x9E); (#"b3_a", 0x9F); (#"b4_b", 0xA0); (#"b4_c", 0xA1); (#"b4_d", 0xA2);
       (#"b4_e", 0xA3); (#"b4_h", 0xA4); (#"b4_l", 0xA5); (#"b4_ind_hl", 0xA6); (#"b4_a", 0xA7);
       (#"b5_b", 0xA8); (#"b5_c", 0xA9); (#"b5_d", 0xAA); (#"b5_e", 0xAB); (#"b5_h", 0xAC);
       (#"b5_l", 0xAD); (#"b5_ind_hl", 0xAE); (#"b5_a", 0xAF); (#"b6_b", 0xB0); (#"b6_c", 0xB1);
       (#"b6_d", 0xB2); (#"b6_e", 0xB3); (#"b6_h", 0xB4); (#"b6_l", 0xB5); (#"b6_ind_hl", 0xB6);
       (#"b6_a", 0xB7); (#"b7_b", 0xB8); (#"b7_c", 0xB9); (#"b7_d", 0xBA); (#"b7_e", 0xBB);
       (#"b7_h", 0xBC); (#"b7_l", 0xBD); (#"b7_ind_hl", 0xBE); (#"b7_a", 0xBF)]);
    (* 509 *) (#"SET",
      [(#"b0_b", 0xC0); (#"b0_c", 0xC1); (#"b0_d", 0xC2); (#"b0_e", 0xC3); (#"b0_h", 0xC4);
       (#"b0_l", 0xC5); (#"b0_ind_hl", 0xC6); (#"b0_a", 0xC7); (#"b1_b", 0xC8); (#"b1_c", 0xC9);
       (#"b1_d", 0xCA); (#"b1_e", 0xCB); (#"b1_h", 0xCC); (#"b1_l", 0xCD); (#"b1_ind_hl", 0xCE);
       (#"b1_a", 0xCF); (#"b2_b", 0xD0); (#"b2_c", 0xD1); (#"b2_d", 0xD2); (#"b2_e", 0xD3);
       (#"b2_h", 0xD4); (#"b2_l", 0xD5); (#"b2_ind_hl", 0xD6); (#"b2_a", 0xD7); (#"b3_b", 0xD8);
       (#"b3_c", 0xD9); (#"b3_d", 0xDA); (#"b3_e", 0xDB); (#"b3_h", 0xDC); (#"b3_l", 0xDD);
       (#"b3_ind_hl", 0xDE); (#"b3_a", 0xDF); (#"b4_b", 0xE0); (#"b4_c", 0xE1); (#"b4_d", 0xE2);
       (#"b4_e", 0xE3); (#"b4_h", 0xE4); (#"b4_l", 0xE5); (#"b4_ind_hl", 0xE6); (#"b4_a", 0xE7);
       (#"b5_b", 0xE8); (#"b5_c", 0xE9); (#"b5_d", 0xEA); (#"b5_e", 0xEB); (#"b5_h", 0xEC);
       (#"b5_l", 0xED); (#"b5_ind_hl", 0xEE); (#"b5_a", 0xEF); (#"b6_b", 0xF0); (#"b6_c", 0xF1);
       (#"b6_d", 0xF2); (#"b6_e", 0xF3); (#"b6_h", 0xF4); (#"b6_l", 0xF5); (#"b6_ind_hl", 0xF6);
       (#"b6_a", 0xF7); (#"b7_b", 0xF8); (#"b7_c", 0xF9); (#"b7_d", 0xFA); (#"b7_e", 0xFB);
       (#"b7_h", 0xFC); (#"b7_l", 0xFD); (#"b7_ind_hl", 0xFE); (#"b7_a", 0xFF)]);
    (* 577 *) (#"RLC",
      [(#"b", 0x00); (#"c", 0x01); (#"d", 0x02); (#"e", 0x03); (#"h", 0x04);
       (#"l", 0x05); (#"ind_hl", 0x06); (#"a", 0x07)]);
    (* 589 *) (#"RRC",
      [(#"b", 0x08); (#"c", 0x09); (#"d", 0x0A); (#"e", 0x0B); (#"h", 0x0C);
       (#"l", 0x0D); (#"ind_hl", 0x0E); (#"a", 0x0F)]);
    (* 601 *) (#"RL",
      [(#"b", 0x10); (#"c", 0x11); (#"d", 0x12); (#"e", 0x13); (#"h", 0x14);
       (#"l", 0x15); (#"ind_hl", 0x16); (#"a", 0x17)]);
    (* 613 *) (#"RR",
      [(#"b", 0x18); (#"c", 0x19); (#"d", 0x1A); (#"e", 0x1B); (#"h", 0x1C);
       (#"l", 0x1D); (#"ind_hl", 0x1E); (#"a", 0x1F)]);
    (* 625 *) (#"SLA",
      [(#"b", 0x20); (#"c", 0x21); (#"d", 0x22); (#"e", 0x23); (#"h", 0x24);
       (#"l", 0x25); (#"ind_hl", 0x26); (#"a", 0x27)]);
    (* 637 *) (#"SRA",
      [(#"b", 0x28); (#"c", 0x29); (#"d", 0x2A); (#"e", 0x2B); (#"h", 0x2C);
       (#"l", 0x2D); (#"ind_hl", 0x2E); (#"a", 0x2F)]);
    (* 649 *) (#"SRL",
      [(#"b", 0x38); (#"c", 0x39); (#"d", 0x3A); (#"e", 0x3B); (#"h", 0x3C);
       (#"l", 0x3D); (#"ind_hl", 0x3E); (#"a", 0x3F)]);
    (* 661 *) (#"SWAP",
      [(#"b", 0x30); (#"c", 0x31); (#"d", 0x32); (#"e", 0x33); (#"h", 0x34);
       (#"l", 0x35); (#"ind_hl", 0x36); (#"a", 0x37)]) ].
(** cpu/lr35902.py:35-49 register_instructions *)
Definition lr_static : list (str * Z) :=
  [ (#"NOP", 0x00); (#"RRCA", 0x0F); (#"BRA", 0x1F); (#"HALT", 0x76); (#"DI", 0xF3);
    (#"EI", 0xFB); (#"RLA", 0x17); (#"RLCA", 0x07); (#"RRA", 0x1F); (#"DAA", 0x27);
    (#"CPL", 0x2F); (#"SCF", 0x37); (#"CCF", 0x3F); (#"RETI", 0xD9) ].

(** The opcode table: assembler.py:149-155 and 104-109.  No name is registered
    twice, so the order does not matter. *)
Definition lr_ops : list (str * opcode) :=
  map (fun '(n, k) => (n, OStatic [k])) lr_static ++
  map (fun '(n, (c, r, k)) => (n, OFun (build_opcode c r k))) lr_table ++
  map (fun '(n, k) => (n, OFun (build_cb_opcode k))) lr_cb_table ++
  [ (#"LDH", OFun lr_ldh_op); (#"LD", OFun (lr_ld lr_ld_args)); (#"RET", OFun (lr_ret lr_ret_args));
    (#"STOP", OFun lr_stop); (#"RST", OFun lr_rst) ].

(** cpu/lr35902.py:27-33: the class *)
Definition lr35902 (e : env) : cfg := mk_cfg lr_p e lr_ops [] [] [].
