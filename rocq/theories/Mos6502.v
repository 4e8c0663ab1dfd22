(** Model of necroassembler/cpu/mos6502.py *)
From Verif Require Import Py Utils Tokenizer State Assembler Instr.
Local Open Scope Z_scope.

(** cpu/mos6502.py:19-20 _check_immediate *)
Definition check_immediate (token : str) : bool :=
  Nat.ltb 1 (length token) && starts_with #"#" token.
(** cpu/mos6502.py:23-24 _check_address *)
Definition check_address (token : str) : bool :=
  negb (str_eqb token []) && negb (starts_with #"#" token).

(** cpu/mos6502.py:34-35 is_zero_page *)
Definition is_zero_page (address : Z) : bool := (0 <=? address) && (address <=? 0xff).

(** cpu/mos6502.py:38-41 _AVAILABLE_MODES *)
Definition available_modes : list str :=
  [ #"immediate"; #"accumulator"; #"absolute"; #"absolute_x"; #"absolute_y";
    #"zero_page"; #"zero_page_x"; #"zero_page_y"; #"indirect"; #"indirect_x"; #"indirect_y" ].

(** cpu/mos6502.py:46-50 class attributes *)
Definition mos6502_p : pcfg :=
  PCfg [#"$"] [] [#"%"] [] [#"@"] [] [] [] false 0 false.

(** cpu/mos6502.py:86-91 _manage_branching *)
Definition manage_branching (code : Z) (tokens : list str) : M (option bytes) :=
  let! arg := tok_at tokens 1 in
  let! s := get in
  let! address := parse_integer_or_label mos6502_p
                    (LabelData arg 1 8 (pc s + 2) 1 1 None None None) false in
  let! b := lift (pack false [FB; Fb] [code; address]) in
  ret (Some b).

(** cpu/mos6502.py:93-124 _manage_address *)
Definition manage_address (absolute zero_page : option Z) (arg : str) : M (option bytes) :=
  let! address := m_parse_integer mos6502_p arg 16 false in
  match address with
  | Some address =>
      (* 98-104: numeric address *)
      match zero_page, is_zero_page address with
      | Some z, true => let! b := lift (pack_byte [Some z; Some address]) in ret (Some b)
      | _, _ =>
          match absolute with
          | None => araise AbsoluteAddressNotAllowed
          | Some a => let! b := lift (pack false [FB; FH] [a; address]) in ret (Some b)
          end
      end
  | None =>
      (* 108-125: label *)
      let! address := m_label_absolute mos6502_p arg in
      let postpone :=
        match absolute with
        | None => araise AbsoluteAddressNotAllowed
        | Some a =>
            add_label_translation (LabelData arg 2 16 0 1 1 None None None) ;;
            let! b := lift (pack false [FB; FH] [a; 0]) in ret (Some b)
        end in
      match address with
      | None => postpone
      | Some address =>
          match zero_page, is_zero_page address with
          | Some z, true => let! b := lift (pack_byte [Some z; Some address]) in ret (Some b)
          | _, _ => postpone
          end
      end
  end.

(** kwargs[k]; cpu/mos6502.py:133-158 *)
Definition kwarg (kwargs : list (str * Z)) (k : str) : M Z :=
  match dget str_eqb kwargs k with Some v => ret v | None => praise KeyError end.

(** cpu/mos6502.py:160-161 except KeyError *)
Definition except_key_error {A} (m : M A) : M A :=
  fun s => match m s with
           | (s', Err (PExc KeyError)) => (s', Err (AExc UnsupportedModeForOpcode))
           | r => r
           end.

(** cpu/mos6502.py:128-163 _manage_mode *)
Definition manage_mode (kwargs : list (str * Z)) (tokens : list str) : M (option bytes) :=
  if negb (forallb (fun '(k, _) => str_in k available_modes) kwargs) then araise InvalidMode else
  except_key_error (
    if imatch tokens 1 [PStr #"A"] then
      let! c := kwarg kwargs #"accumulator" in
      let! b := lift (pack_byte [Some c]) in ret (Some b)
    else if imatch tokens 1 [PFun check_immediate] then
      let! c := kwarg kwargs #"immediate" in
      let! t1 := tok_at tokens 1 in
      let! v := parse_integer_or_label mos6502_p
                  (LabelData (skipn 1 t1) 1 8 0 1 1 None None None) false in
      let! b := lift (pack_byte [Some c; Some v]) in ret (Some b)
    else if imatch tokens 1 [PFun check_address] then
      let! t1 := tok_at tokens 1 in
      manage_address (dget str_eqb kwargs #"absolute") (dget str_eqb kwargs #"zero_page") t1
    else if imatch tokens 1 [PFun check_address; PStr #"X"] then
      let! t1 := tok_at tokens 1 in
      manage_address (dget str_eqb kwargs #"absolute_x") (dget str_eqb kwargs #"zero_page_x") t1
    else if imatch tokens 1 [PFun check_address; PStr #"Y"] then
      let! t1 := tok_at tokens 1 in
      manage_address (dget str_eqb kwargs #"absolute_y") (dget str_eqb kwargs #"zero_page_y") t1
    else if imatch tokens 1 [PStr #"("; PFun check_address; PStr #")"] then
      let! c := kwarg kwargs #"indirect" in
      let! t2 := tok_at tokens 2 in
      manage_address (Some c) None t2
    else if imatch tokens 1 [PStr #"("; PFun check_address; PStr #"X"; PStr #")"] then
      let! c := kwarg kwargs #"indirect_x" in
      let! t2 := tok_at tokens 2 in
      manage_address None (Some c) t2
    else if imatch tokens 1 [PStr #"("; PFun check_address; PStr #")"; PStr #"Y"] then
      let! c := kwarg kwargs #"indirect_y" in
      let! t2 := tok_at tokens 2 in
      manage_address None (Some c) t2
    else araise InvalidMode).

(** cpu/mos6502.py:165-405: the opcode methods that call _manage_mode and their
    keyword arguments *)
Definition mos6502_modes : list (str * list (str * Z)) :=
  [ (#"ADC",
      [(#"immediate", 0x69); (#"zero_page", 0x65); (#"zero_page_x", 0x75); (#"absolute", 0x6D);
       (#"absolute_x", 0x7D); (#"absolute_y", 0x79); (#"indirect_x", 0x61); (#"indirect_y", 0x71)]);
    (#"AND",
      [(#"immediate", 0x29); (#"zero_page", 0x25); (#"zero_page_x", 0x35); (#"absolute", 0x2D);
       (#"absolute_x", 0x3D); (#"absolute_y", 0x39); (#"indirect_x", 0x21); (#"indirect_y", 0x31)]);
    (#"ASL",
      [(#"accumulator", 0x0A); (#"zero_page", 0x06); (#"zero_page_x", 0x16); (#"absolute", 0x0E);
       (#"absolute_x", 0x1E)]);
    (#"BIT",
      [(#"zero_page", 0x24); (#"absolute", 0x2C)]);
    (#"CMP",
      [(#"immediate", 0xC9); (#"zero_page", 0xC5); (#"zero_page_x", 0xD5); (#"absolute", 0xCD);
       (#"absolute_x", 0xDD); (#"absolute_y", 0xD9); (#"indirect_x", 0xC1); (#"indirect_y", 0xD1)]);
    (#"CPX",
      [(#"immediate", 0xE0); (#"zero_page", 0xE4); (#"absolute", 0xEC)]);
    (#"CPY",
      [(#"immediate", 0xC0); (#"zero_page", 0xC4); (#"absolute", 0xCC)]);
    (#"DEC",
      [(#"zero_page", 0xC6); (#"zero_page_x", 0xD6); (#"absolute", 0xCE); (#"absolute_x", 0xDE)]);
    (#"EOR",
      [(#"immediate", 0x49); (#"zero_page", 0x45); (#"zero_page_x", 0x55); (#"absolute", 0x4D);
       (#"absolute_x", 0x5D); (#"absolute_y", 0x59); (#"indirect_x", 0x41); (#"indirect_y", 0x51)]);
    (#"INC",
      [(#"zero_page", 0xE6); (#"zero_page_x", 0xF6); (#"absolute", 0xEE); (#"absolute_x", 0xFE)]);
    (#"JMP",
      [(#"absolute", 0x4C); (#"indirect", 0x6C)]);
    (#"JSR",
      [(#"absolute", 0x20)]);
    (#"LDA",
      [(#"immediate", 0xA9); (#"zero_page", 0xA5); (#"zero_page_x", 0xB5); (#"absolute", 0xAD);
       (#"absolute_x", 0xBD); (#"absolute_y", 0xB9); (#"indirect_x", 0xA1); (#"indirect_y", 0xB1)]);
    (#"LDX",
      [(#"immediate", 0xA2); (#"zero_page", 0xA6); (#"zero_page_y", 0xB6); (#"absolute", 0xAE);
       (#"absolute_y", 0xBE)]);
    (#"LDY",
      [(#"immediate", 0xA0); (#"zero_page", 0xA4); (#"zero_page_x", 0xB4); (#"absolute", 0xAC);
       (#"absolute_x", 0xBC)]);
    (#"LSR",
      [(#"accumulator", 0x4A); (#"zero_page", 0x46); (#"zero_page_x", 0x56); (#"absolute", 0x4E);
       (#"absolute_x", 0x5E)]);
    (#"ORA",
      [(#"immediate", 0x09); (#"zero_page", 0x05); (#"zero_page_x", 0x15); (#"absolute", 0x0D);
       (#"absolute_x", 0x1D); (#"absolute_y", 0x19); (#"indirect_x", 0x01); (#"indirect_y", 0x11)]);
    (#"ROL",
      [(#"accumulator", 0x2A); (#"zero_page", 0x26); (#"zero_page_x", 0x36); (#"absolute", 0x2E);
       (#"absolute_x", 0x3E)]);
    (#"ROR",
      [(#"accumulator", 0x6A); (#"zero_page", 0x66); (#"zero_page_x", 0x76); (#"absolute", 0x6E);
       (#"absolute_x", 0x7E)]);
    (#"SBC",
      [(#"immediate", 0xE9); (#"zero_page", 0xE5); (#"zero_page_x", 0xF5); (#"absolute", 0xED);
       (#"absolute_x", 0xFD); (#"absolute_y", 0xF9); (#"indirect_x", 0xE1); (#"indirect_y", 0xF1)]);
    (#"STA",
      [(#"zero_page", 0x85); (#"zero_page_x", 0x95); (#"absolute", 0x8D); (#"absolute_x", 0x9D);
       (#"absolute_y", 0x99); (#"indirect_x", 0x81); (#"indirect_y", 0x91)]);
    (#"STX",
      [(#"zero_page", 0x86); (#"zero_page_y", 0x96); (#"absolute", 0x8E)]);
    (#"STY",
      [(#"zero_page", 0x84); (#"zero_page_x", 0x94); (#"absolute", 0x8C)]) ].

(** cpu/mos6502.py:198-228: the opcode methods that call _manage_branching *)
Definition mos6502_branches : list (str * Z) :=
  [ (#"BPL", 0x10); (#"BMI", 0x30); (#"BVC", 0x50); (#"BVS", 0x70);
    (#"BCC", 0x90); (#"BCS", 0xB0); (#"BNE", 0xD0); (#"BEQ", 0xF0) ].

(** cpu/mos6502.py:54-84 register_instructions *)
Definition mos6502_static : list (str * Z) :=
  [ (#"BRK", 0x00); (#"CLC", 0x18); (#"SEC", 0x38); (#"CLI", 0x58);
    (#"SEI", 0x78); (#"CLV", 0xb8); (#"CLD", 0xd8); (#"SED", 0xf8);
    (#"NOP", 0xEA); (#"TAX", 0xAA); (#"TXA", 0x8A); (#"DEX", 0xCA);
    (#"INX", 0xE8); (#"TAY", 0xA8); (#"TYA", 0x98); (#"DEY", 0x88);
    (#"INY", 0xC8); (#"RTI", 0x40); (#"RTS", 0x60); (#"TXS", 0x9A);
    (#"TSX", 0xBA); (#"PHA", 0x48); (#"PLA", 0x68); (#"PHP", 0x08);
    (#"PLP", 0x28) ].

(** The opcode table: assembler.py:149-155 and 104-109.  No name is registered
    twice, so the order does not matter. *)
Definition mos6502_ops : list (str * opcode) :=
  map (fun '(n, k) => (n, OFun (manage_mode k))) mos6502_modes ++
  map (fun '(n, k) => (n, OFun (manage_branching k))) mos6502_branches ++
  map (fun '(n, k) => (n, OStatic [k])) mos6502_static.

(** cpu/mos6502.py:44-50: the class *)
Definition mos6502 (e : env) : cfg := mk_cfg mos6502_p e mos6502_ops [] [] [].
