(** Model of necroassembler/cpu/thumb.py *)
From Verif Require Import Py Utils Tokenizer State Assembler Instr.
Local Open Scope Z_scope.

(** cpu/thumb.py:6-11 *)
Definition low_regs : list str := [ #"r0"; #"r1"; #"r2"; #"r3"; #"r4"; #"r5"; #"r6"; #"r7" ].
(** cpu/thumb.py:7 *)
Definition high_regs_true : list str := [ #"r8"; #"r9"; #"r10"; #"r11"; #"r12"; #"r13"; #"r14"; #"r15" ].
(** cpu/thumb.py:8 *)
Definition high_regs_aliases : list str := [ #"fp"; #"ip"; #"sp"; #"lr"; #"pc" ].
(** cpu/thumb.py:9 *)
Definition high_regs : list str := high_regs_true ++ high_regs_aliases.
(** cpu/thumb.py:10 *)
Definition pc_regs : list str := [ #"pc"; #"r15" ].
(** cpu/thumb.py:11 *)
Definition sp_regs : list str := [ #"sp"; #"r13" ].

(** cpu/thumb.py:14-15 _immediate *)
Definition th_immediate (t : str) : bool := Nat.ltb 1 (length t) && starts_with #"#" t.
(** cpu/thumb.py:18-19 _label *)
Definition th_label (t : str) : bool := negb (str_eqb t []) && negb (starts_with #"#" t).
(** cpu/thumb.py:22-23 _interrupt *)
Definition th_interrupt (t : str) : bool := isdigit t.

(** cpu/thumb.py:31-36 low_reg; int(reg[1:]) of a name in LOW_REGS is its index *)
Definition low_reg (t : str) : M Z :=
  if str_in (lower t) high_regs then araise InvalidRegister else
  match index_of (lower t) low_regs with
  | Some i => ret (Z.of_nat i)
  | None => araise UnknownRegister
  end.
(** cpu/thumb.py:39-46 high_reg; int(reg[1:]) - 8 of a name in HIGH_REGS_TRUE is its index *)
Definition high_reg (t : str) : M Z :=
  match index_of (lower t) high_regs_aliases with
  | Some i => ret (Z.of_nat i + 3)
  | None =>
      if str_in (lower t) low_regs then araise InvalidRegister else
      match index_of (lower t) high_regs_true with
      | Some i => ret (Z.of_nat i)
      | None => araise UnknownRegister
      end
  end.

(** cpu/thumb.py:55-57 class attributes *)
Definition thumb_p : pcfg := PCfg [#"0x"] [] [#"0b"; #"0y"] [] [] [] [] [] false 0 false.

(** cpu/thumb.py:59-68 _offset, always called with alignment 2, so alignment//2 is 1 *)
Definition th_offset (hi lo : Z) (t : str) : M Z :=
  let! s := get in
  parse_integer_or_label thumb_p
    (LabelData t 2 (hi - lo + 1 + 1) (pc s + 4) 0 2 (Some (hi, lo)) (Some (fun x => Z.shiftr x 1)) None) false.
(** cpu/thumb.py:70-74 _imm *)
Definition th_imm (t : str) : M Z :=
  let! v := m_parse_integer thumb_p (skipn 1 t) 8 false in
  match v with None => araise InvalideImmediateValue | Some v => ret v end.
(** cpu/thumb.py:76-84 _word8 *)
Definition th_word8 (t : str) : M Z :=
  let! s := get in
  parse_integer_or_label thumb_p
    (LabelData (skipn 1 t) 2 8 (Z.land (pc s + 4) (Z.lnot 2)) 0 4 (Some (7, 0)) (Some (fun x => Z.shiftr x 2)) None) false.

(** The kinds of operands that occur in the arguments of instr.match, and the function
    given for them to instr.apply (None for those without a value). cpu/thumb.py:125-463 *)
Inductive opnd :=
| OLow | OHigh | OPc | OSp | OImm | OWord8 | OOffset (hi lo : Z) | OInterrupt | OLit (s : str).
(** cpu/thumb.py:125-463: the argument of instr.match for an operand *)
Definition op_pattern (o : opnd) : pattern :=
  match o with
  | OLow => PTuple low_regs | OHigh => PTuple high_regs | OPc => PTuple pc_regs | OSp => PTuple sp_regs
  | OImm | OWord8 => PFun th_immediate | OOffset _ _ => PFun th_label | OInterrupt => PFun th_interrupt
  | OLit s => PStr s
  end.
(** cpu/thumb.py:125-463: the argument of instr.apply for an operand *)
Definition op_value (o : opnd) : option (str -> M Z) :=
  match o with
  | OLow => Some low_reg | OHigh => Some high_reg | OPc | OSp | OLit _ => None
  | OImm => Some th_imm | OWord8 => Some th_word8 | OOffset hi lo => Some (th_offset hi lo)
  | OInterrupt => Some (fun t => match py_int 10 t with Some v => ret v | None => praise ValueError end)
  end.

(** One branch of an opcode method:
      if instr.match(operands): values = instr.apply(...); return self._build_opcode(base, fields)
    A field is ((hi, lo), (i, k)): the i-th value shifted right by k.  [None] stands for a field
    written as a tuple of three elements, which pack_bits (utils.py:75) fails to unpack.
    _conditional_branch, _b and _swi take instr.tokens[1] themselves, which is the same. *)
Record row := Row { r_ops : list opnd; r_base : Z; r_fields : option (list ((Z * Z) * (nat * Z))) }.

(** cpu/thumb.py:122-123 _build_opcode *)
Definition th_build (base : Z) (fs : list ((Z * Z) * Z)) : M (option bytes) :=
  let! b := lift (pack_bits_le16u base fs) in ret (Some b).

(** cpu/thumb.py:125-463: the fields given to _build_opcode *)
Definition fill_fields (fs : list ((Z * Z) * (nat * Z))) (vs : list Z) : list ((Z * Z) * Z) :=
  map (fun '(hl, (i, k)) => (hl, Z.shiftr (nth i vs 0) k)) fs.
(** cpu/thumb.py:125-463: the body of one if instr.match(...) *)
Definition run_row (tokens : list str) (r : row) : M (option bytes) :=
  let! vs := iapply tokens (map op_value (r_ops r)) in
  match r_fields r with
  | Some fs => th_build (r_base r) (fill_fields fs vs)
  | None => praise ValueError
  end.
(** cpu/thumb.py:125-463: the chain of if instr.match(...) *)
Fixpoint run_rows (rs : list row) (tokens : list str) : M (option bytes) :=
  match rs with
  | [] => ret None
  | r :: rs' => if imatch tokens 1 (map op_pattern (r_ops r)) then run_row tokens r else run_rows rs' tokens
  end.

(** cpu/thumb.py:86-89 _conditional_branch *)
Definition cond_branch (cond : Z) : list row :=
  [ Row [OOffset 7 0] (0xD000 + cond * 256) (Some [((7, 0), (0%nat, 1))]) ].
(** cpu/thumb.py:91-94 _alu *)
Definition alu (op : Z) : row :=
  Row [OLow; OLow] (0x4000 + op * 64) (Some [((5, 3), (1%nat, 0)); ((2, 0), (0%nat, 0))]).
(** Shapes of the fields that occur several times. cpu/thumb.py:129, 136, 143 *)
Definition f_shift : list ((Z * Z) * (nat * Z)) := [((10, 6), (2%nat, 0)); ((5, 3), (1%nat, 0)); ((2, 0), (0%nat, 0))].
(** cpu/thumb.py:150, 292, 308 *)
Definition f_three : list ((Z * Z) * (nat * Z)) := [((8, 6), (2%nat, 0)); ((5, 3), (1%nat, 0)); ((2, 0), (0%nat, 0))].
(** cpu/thumb.py:192, 210 *)
Definition f_imm8 : list ((Z * Z) * (nat * Z)) := [((10, 8), (0%nat, 0)); ((7, 0), (1%nat, 0))].
(** cpu/thumb.py:196, 200, 204, 214, 218, 222 *)
Definition f_two : list ((Z * Z) * (nat * Z)) := [((5, 3), (1%nat, 0)); ((2, 0), (0%nat, 0))].
(** cpu/thumb.py:287, 301 *)
Definition f_word8 : list ((Z * Z) * (nat * Z)) := [((10, 8), (0%nat, 0)); ((7, 0), (1%nat, 2))].
(** cpu/thumb.py:297, 313, 325, 351 *)
Definition f_disp (k : Z) : list ((Z * Z) * (nat * Z)) := [((10, 6), (2%nat, k)); ((5, 3), (1%nat, 0)); ((2, 0), (0%nat, 0))].
(** cpu/thumb.py:125-144 LSL, LSR, ASR *)
Definition shifts (base op : Z) : list row := [ Row [OLow; OLow; OImm] base (Some f_shift); alu op ].
(** cpu/thumb.py:194-204, 212-222 *)
Definition high_ops (op : Z) : list row :=
  [ Row [OLow; OHigh] (0x4440 + op) (Some f_two); Row [OHigh; OLow] (0x4480 + op) (Some f_two);
    Row [OHigh; OHigh] (0x44C0 + op) (Some f_two) ].
(** cpu/thumb.py:285-301: Rd, [ x y ] *)
Definition ind (o : opnd) (p : opnd) : list opnd := [OLow; OLit #"["; o; p; OLit #"]"].

(** cpu/thumb.py:125-463: the opcode methods; the constants of the calls of _build_opcode
    and _conditional_branch with the constant fields (op, cond) added *)
Definition thumb_rows : list (str * list row) :=
  [ (#"LSL", shifts 0 2); (#"LSR", shifts 0x0800 3); (#"ASR", shifts 0x1000 4);
    (#"ADD", [ Row [OLow; OLow; OLow] 0x1800 (Some f_three); Row [OLow; OLow; OImm] 0x1C00 (Some f_three);
               Row [OLow; OImm] 0x3000 (Some f_imm8) ] ++ high_ops 0 ++
             [ Row [OLow; OPc; OImm] 0xA000 (Some f_imm8); Row [OLow; OSp; OImm] 0xA800 (Some f_imm8);
               Row [OSp; OImm] 0xB000 None ]);
    (#"SUB", [ Row [OLow; OLow; OLow] 0x1A00 (Some f_three); Row [OLow; OLow; OImm] 0x1E00 (Some f_three);
               Row [OLow; OImm] 0x3800 (Some f_imm8) ]);
    (#"MOV", Row [OLow; OImm] 0x2000 (Some f_imm8) :: high_ops 0x200);
    (#"CMP", [ Row [OLow; OImm] 0x2800 (Some f_imm8) ] ++ high_ops 0x100 ++ [alu 10]);
    (#"AND", [alu 0]); (#"EOR", [alu 1]); (#"ADC", [alu 5]); (#"SBC", [alu 6]); (#"ROR", [alu 7]);
    (#"TST", [alu 8]); (#"NEG", [alu 9]); (#"CMN", [alu 11]); (#"ORR", [alu 12]); (#"MUL", [alu 13]);
    (#"BIC", [alu 14]); (#"MVN", [alu 15]);
    (#"BX", [ Row [OLow] 0x4700 (Some [((5, 3), (0%nat, 0))]); Row [OHigh] 0x4740 (Some [((5, 3), (0%nat, 0))]) ]);
    (#"LDR", [ Row (ind OPc OWord8) 0x4800 (Some f_word8); Row (ind OLow OLow) 0x5800 (Some f_three);
               Row (ind OLow OImm) 0x6800 (Some (f_disp 2)); Row (ind OSp OWord8) 0x9800 (Some f_word8) ]);
    (#"LDRB", [ Row (ind OLow OLow) 0x5C00 (Some f_three); Row (ind OLow OImm) 0x7800 (Some (f_disp 2)) ]);
    (#"LDRH", [ Row (ind OLow OLow) 0x2C00 (Some f_three); Row (ind OLow OImm) 0x8800 (Some (f_disp 0)) ]);
    (#"LDSB", [ Row (ind OLow OLow) 0x5600 (Some f_three) ]);
    (#"LDSH", [ Row (ind OLow OLow) 0x5E00 (Some f_three) ]);
    (#"STR", [ Row (ind OLow OLow) 0x5000 (Some f_three); Row (ind OLow OImm) 0x6800 (Some (f_disp 2)) ]);
    (#"STRB", []);
    (#"STRH", [ Row (ind OLow OLow) 0x5200 (Some f_three) ]);
    (#"B", [ Row [OOffset 10 0] 0xE000 (Some [((10, 0), (0%nat, 1))]) ]);
    (#"BEQ", cond_branch 0); (#"BNE", cond_branch 1); (#"BCS", cond_branch 2); (#"BCC", cond_branch 3);
    (#"BMI", cond_branch 4); (#"BPL", cond_branch 5); (#"BVS", cond_branch 6); (#"BVC", cond_branch 7);
    (#"BHI", cond_branch 8); (#"BLS", cond_branch 9); (#"BGE", cond_branch 10); (#"BLT", cond_branch 11);
    (#"BGT", cond_branch 12); (#"BLE", cond_branch 13);
    (#"SWI", [ Row [OInterrupt] 0xDF00 (Some [((7, 0), (0%nat, 0))]) ]) ].

(** cpu/thumb.py:364-396 _bl *)
Definition thumb_bl (tokens : list str) : M (option bytes) :=
  if imatch tokens 1 [PFun th_label] then
    let! offset := tok_at tokens 1 in
    let! address := m_parse_integer thumb_p offset 23 true in
    let label_form :=
      let! s := get in
      add_label_translation
        (LabelData offset 2 23 (pc s + 4) 0 2 (Some (10, 0)) (Some (fun x => Z.shiftr x 12)) None) ;;
      add_label_translation
        (LabelData offset 2 23 (pc s + 4) 2 2 (Some (10, 0)) (Some (fun x => Z.land (Z.shiftr x 1) 0x7FF)) None) ;;
      let! b := lift (pack_le16u [Some 0xF000; Some 0xF800]) in ret (Some b) in
    match address with
    | Some address =>
        if address =? 0 then label_form else
        let address := Z.shiftr address 1 in
        let! b0 := lift (pack_bits_le16u 0xF000 [((10, 0), Z.shiftr address 11)]) in
        let! b1 := lift (pack_bits_le16u 0xF800 [((10, 0), Z.land address 0x7ff)]) in
        ret (Some (b0 ++ b1))
    | None => label_form
    end
  else ret None.

(** token.split('-'); cpu/thumb.py:105 *)
Fixpoint split_minus (acc : str) (s : str) : list str :=
  match s with
  | [] => [acc]
  | c :: t => if Ascii.eqb c "-" then acc :: split_minus [] t else split_minus (acc ++ [c]) t
  end.

(** cpu/thumb.py:115-116: the registers of a range *)
Fixpoint set_range (n : nat) (first : Z) (rlist : Z) : res Z :=
  match n with
  | O => Ok rlist
  | S n' => let? r := pack_bit rlist [(first, 1)] in set_range n' (first + 1) r
  end.
(** cpu/thumb.py:96-120 _rlist *)
Fixpoint th_rlist (tokens : list str) (rlist : Z) : M Z :=
  match tokens with
  | [] => ret rlist
  | token :: rest =>
      if str_in token low_regs then
        let! b := low_reg token in
        let! r := lift (pack_bit rlist [(b, 1)]) in
        th_rlist rest r
      else if existsb (Ascii.eqb "-") token then
        match split_minus [] token with
        | [r_start; r_end] =>
            if negb (str_in (lower r_start) low_regs) then araise InvalidRList else
            if negb (str_in (lower r_end) low_regs) then araise InvalidRList else
            let! first := low_reg r_start in
            let! last := low_reg r_end in
            if last <? first then araise InvalidRList else
            let! r := lift (set_range (Z.to_nat (last + 1 - first)) first rlist) in
            th_rlist rest r
        | _ => praise ValueError
        end
      else araise InvalidRList
  end.

(** cpu/thumb.py:465-478 _push; the list has at least four elements *)
Definition thumb_push (tokens : list str) : M (option bytes) :=
  if Nat.ltb (length tokens) 4 then ret None else
  if negb (str_eqb (nth 1 tokens []) #"{") || negb (str_eqb (last tokens []) #"}") then ret None else
  let lr := str_eqb (lower (nth (length tokens - 2) tokens [])) #"lr" in
  let body := firstn (length tokens - 2 - (if lr then 2 else 1)) (skipn 2 tokens) in
  let! rlist := th_rlist body 0 in
  th_build 0xB400 [((11, 11), if lr then 1 else 0); ((7, 0), rlist)].

(** cpu/thumb.py:53 AssemblerThumb *)
Definition thumb_ops : list (str * opcode) :=
  map (fun '(n, rs) => (n, OFun (run_rows rs))) thumb_rows ++
  [ (#"BL", OFun thumb_bl); (#"PUSH", OFun thumb_push) ].
(** cpu/thumb.py:53-57: the class *)
Definition thumb (e : env) : cfg := mk_cfg thumb_p e thumb_ops [] [] [].
