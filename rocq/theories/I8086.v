(** Model of cpu/intel8086.py *)
From Verif Require Import Py Utils Tokenizer State Assembler Instr.
Local Open Scope Z_scope.

(** cpu/intel8086.py:597-609 *)
Definition i86_p : pcfg :=
  PCfg [#"0x"; #"0h"; #"$0"] [#"h"] [#"0b"; #"0y"] [#"b"; #"y"] [#"0o"; #"0q"] [#"o"; #"q"] [#"0d"] [#"d"] false 0 false.

(** cpu/intel8086.py:6 REGS8 *)
Definition regs8 : list str := [#"AL"; #"CL"; #"DL"; #"BL"; #"AH"; #"CH"; #"DH"; #"BH"].
(** cpu/intel8086.py:7 REGS16 *)
Definition regs16 : list str := [#"AX"; #"CX"; #"DX"; #"BX"; #"SP"; #"BP"; #"SI"; #"DI"].
(** cpu/intel8086.py:8 SEGMENTS *)
Definition segments : list str := [#"ES"; #"CS"; #"SS"; #"DS"].

(** The dictionary modrm, a missing key being None.  The displacement is stored as None
    where there is none (cpu/intel8086.py:29-45), which its only reader (line 17) does not tell
    from a missing key. *)
Record modrm := Modrm { mo_mod : option Z; mo_reg : option Z; mo_rm : option Z; mo_disp : option str }.

(** No line of /repo of its own: modrm[key] *)
Definition key (v : option Z) : M Z := match v with Some z => ret z | None => praise KeyError end.

(** lstrip('+'); cpu/intel8086.py:19 *)
Fixpoint lstrip_plus (s : str) : str :=
  match s with
  | c :: t => if Ascii.eqb c "+" then lstrip_plus t else s
  | [] => []
  end.

(** cpu/intel8086.py:11-24 *)
Definition build_modrm (m : modrm) : M bytes :=
  let! md := key (mo_mod m) in
  let! rg := key (mo_reg m) in
  let! rm := key (mo_rm m) in
  let! v := lift (pack_bits 0 [((7, 6), md); ((5, 3), rg); ((2, 0), rm)]) in
  let! blob := lift (pack_byte [Some v]) in
  match mo_disp m with
  | Some d =>
      let! v := parse_integer_or_label i86_p (LabelData (lstrip_plus d) 2 16 0 1 1 None None None) true in
      let! b := lift (pack_le16s [Some v]) in
      ret (blob ++ b)
  | None => ret blob
  end.

(** The branches of _get_modrm_mod: words and r/m.  cpu/intel8086.py:28-60 *)
Definition bases : list (list str * Z) :=
  [ ([#"BX"; #"+"; #"SI"], 0); ([#"BX"; #"+"; #"DI"], 1); ([#"BP"; #"+"; #"SI"], 2); ([#"BP"; #"+"; #"DI"], 3);
    ([#"SI"], 4); ([#"DI"], 5); ([#"BP"], 6); ([#"BX"], 7) ].
(** cpu/intel8086.py:27-61: mod, r/m, number of words and displacement; None for
    InvalidOpCodeArguments, which every caller catches (lines 232-237, 252-257, 288-293).
    The branches with a displacement are those above followed by a sign and any word. *)
Definition get_modrm_mod (arg : list str) : option (Z * Z * nat * option str) :=
  match find (fun '(ws, _) => match_ arg (map PStr ws)) bases with
  | Some (ws, rm) => Some (0, rm, length ws, None)
  | None =>
      match find (fun '(ws, _) => match_ arg (map PStr ws ++ [PTuple [#"+"; #"-"]; PAny])) bases with
      | Some (ws, rm) =>
          Some (2, rm, (length ws + 2)%nat, Some (nth (length ws) arg [] ++ nth (length ws + 1) arg []))
      | None => None
      end
  end.

(** The operand functions.  AReg w stands for those that accept one register only
    (cpu/intel8086.py:82-179). *)
Inductive arg :=
| AReg (w : str) | AEb | AEv | AGb | AGv | AIb | AIv | AJb | AJv | AOb | AOv | AI0 | ASw | AM | AMp | AAp | A3.

(** list.index(x, start) for the closing bracket; cpu/intel8086.py:229, 249, 285 *)
Definition index_from (t : str) (start : nat) (l : list str) : option nat :=
  option_map (fun i => (start + i)%nat) (index_of t (skipn start l)).
(** in on a string; cpu/intel8086.py:196, 307, 327 *)
Definition has_colon (t : str) : bool := existsb (Ascii.eqb ":") t.
(** str.split(':'); cpu/intel8086.py:308 *)
Fixpoint split_colon (acc t : str) : list str :=
  match t with
  | [] => [acc]
  | c :: r => if Ascii.eqb c ":" then acc :: split_colon [] r else split_colon (acc ++ [c]) r
  end.

(** No line of /repo of its own: what an operand function returns, with the dictionary it
    has changed. *)
Definition result := option (nat * bytes * modrm).
(** cpu/intel8086.py:64-79, 273-279: a register in the reg field *)
Definition arg_reg (regs : list str) (tokens : list str) (index : nat) (m : modrm) : M result :=
  let! t := tok_at tokens index in
  match index_of (upper t) regs with
  | Some i =>
      let m := Modrm (mo_mod m) (Some (Z.of_nat i)) (mo_rm m) (mo_disp m) in
      if Nat.ltb 1 index then let! b := build_modrm m in ret (Some (1%nat, b, m))
      else ret (Some (1%nat, [], m))
  | None => ret None
  end.
(** cpu/intel8086.py:225, 234, 245, 254, 290 *)
Definition build_if_reg (m : modrm) : M bytes :=
  match mo_reg m with None => ret [] | Some _ => build_modrm m end.
(** cpu/intel8086.py:227-237, 247-257, 283-293: a place in memory, after its bracket has been
    seen.  _build_modrm does not raise InvalidOpCodeArguments. *)
Definition arg_memory (tokens : list str) (index : nat) (m : modrm) : M result :=
  match index_from #"]" (index + 1) tokens with
  | None => araise InvalidOpCodeArguments
  | Some end_index =>
      match get_modrm_mod (firstn (end_index - (index + 1)) (skipn (index + 1) tokens)) with
      | Some (md, rm, delta, d) =>
          let m := Modrm (Some md) (mo_reg m) (Some rm) d in
          let! b := build_if_reg m in ret (Some ((2 + delta)%nat, b, m))
      | None => ret None
      end
  end.
(** cpu/intel8086.py:220-257: register or memory *)
Definition arg_rm (regs : list str) (tokens : list str) (index : nat) (m : modrm) : M result :=
  let! t := tok_at tokens index in
  let t := upper t in
  match index_of t regs with
  | Some i =>
      let m := Modrm (Some 3) (mo_reg m) (Some (Z.of_nat i)) (mo_disp m) in
      let! b := build_if_reg m in ret (Some (1%nat, b, m))
  | None => if str_eqb t #"[" then arg_memory tokens index m else ret None
  end.
(** cpu/intel8086.py:183, 189, 196, 208, 215, 298, 307, 327: the registers *)
Definition all_regs : list str := regs8 ++ regs16 ++ segments.
(** cpu/intel8086.py:207-208, 214-215, 297-298: a direct address *)
Definition direct (tokens : list str) (index : nat) : M (option str) :=
  match firstn 3 (skipn index tokens) with
  | [_; t; _] as l =>
      if match_ l [PStr #"["; PAny; PStr #"]"] && negb (str_in (upper t) all_regs) then ret (Some t) else ret None
  | _ => ret None
  end.
(** No line of /repo of its own: a label without further options *)
Definition lab (t : str) (size bits off rel : Z) : labeldata := LabelData t size bits rel off 1 None None None.

(** cpu/intel8086.py:64-334 *)
Definition run_arg (a : arg) (tokens : list str) (index : nat) (m : modrm) : M result :=
  match a with
  | AReg w => (* 82-179 *)
      let! t := tok_at tokens index in
      ret (if str_eqb (upper t) w then Some (1%nat, [], m) else None)
  | AEb => arg_rm regs8 tokens index m
  | AEv => arg_rm regs16 tokens index m
  | AGb => arg_reg regs8 tokens index m
  | AGv => arg_reg regs16 tokens index m
  | ASw => arg_reg segments tokens index m
  | AIb => (* 182-185 *)
      let! t := tok_at tokens index in
      if str_in (upper t) (all_regs ++ [#"["; #"]"]) then ret None else
      let! v := parse_integer_or_label i86_p (lab t 1 8 1 0) false in
      let! b := lift (pack_byte [Some v]) in ret (Some (1%nat, b, m))
  | AIv => (* 188-191 *)
      let! t := tok_at tokens index in
      if str_in (upper t) (all_regs ++ [#"["; #"]"]) then ret None else
      let! v := parse_integer_or_label i86_p (lab t 2 16 1 0) false in
      let! b := lift (pack_le16u [Some v]) in ret (Some (1%nat, b, m))
  | AJb => (* 194-203 *)
      let! t := tok_at tokens index in
      if has_colon t || str_in (upper t) all_regs then ret None else
      let! s := get in
      let! v := parse_integer_or_label i86_p (lab t 1 8 1 (pc s + 2)) false in
      let! b := lift (pack_8s [Some v]) in ret (Some (1%nat, b, m))
  | AJv => (* 325-334 *)
      let! t := tok_at tokens index in
      if has_colon t || str_in (upper t) all_regs then ret None else
      let! s := get in
      let! v := parse_integer_or_label i86_p (lab t 2 16 1 (pc s + 3)) false in
      let! b := lift (pack_le16u [Some v]) in ret (Some (1%nat, b, m))
  | AOb => (* 206-210 *)
      let! d := direct tokens index in
      match d with
      | Some t =>
          let! v := parse_integer_or_label i86_p (lab t 1 8 1 0) false in
          let! b := lift (pack_le16u [Some v]) in ret (Some (3%nat, b, m))
      | None => ret None
      end
  | AOv => (* 213-217 *)
      let! d := direct tokens index in
      match d with
      | Some t =>
          let! v := parse_integer_or_label i86_p (lab t 2 16 1 0) false in
          let! b := lift (pack_le16u [Some v]) in ret (Some (3%nat, b, m))
      | None => ret None
      end
  | AI0 => (* 260-270 *)
      if Nat.eqb (length tokens) 1 then ret (Some (1%nat, [], m)) else
      if Nat.eqb (length tokens) 2 then
        let! t := tok_at tokens index in
        let! s := get in
        let! v := lift (parse_integer i86_p (labels s) t 8 false) in
        match v with
        | None => ret None
        | Some v =>
            if v =? 0xA then ret (Some (1%nat, [], m))
            else let! b := lift (pack_byte [Some v]) in ret (Some (1%nat, b, m))
        end
      else ret None
  | AM => (* 281-293 *)
      let! t := tok_at tokens index in
      if str_eqb t #"[" then arg_memory tokens index m else ret None
  | AMp => (* 296-302 *)
      let! d := direct tokens index in
      match d with
      | Some t =>
          let m := Modrm (Some 0) (mo_reg m) (Some 6) (mo_disp m) in
          let! b := build_modrm m in
          let! v := parse_integer_or_label i86_p (lab t 2 16 1 0) false in
          let! a := lift (pack_le16u [Some v]) in ret (Some (3%nat, b ++ a, m))
      | None => ret None
      end
  | AAp => (* 305-312 *)
      let! t := tok_at tokens index in
      if has_colon t && negb (str_in (upper t) all_regs) then
        match split_colon [] t with
        | [segment; offset] =>
            let! o := parse_integer_or_label i86_p (lab offset 2 16 1 0) false in
            let! g := parse_integer_or_label i86_p (lab segment 2 16 3 0) false in
            let! b := lift (pack_le16u [Some o; Some g]) in ret (Some (1%nat, b, m))
        | _ => praise ValueError
        end
      else ret None
  | A3 => (* 315-317 *)
      let! t := tok_at tokens index in
      ret (if str_eqb t #"3" then Some (1%nat, [], m) else None)
  end.

(** cpu/intel8086.py:337-557 OPCODES_TABLE *)
Definition i86_table : list (Z * str * list arg) :=
  [
    (0x00, #"ADD", [AEb; AGb]);
    (0x01, #"ADD", [AEv; AGv]);
    (0x02, #"ADD", [AGb; AEb]);
    (0x03, #"ADD", [AGv; AEv]);
    (0x04, #"ADD", [AReg #"AL"; AIb]);
    (0x05, #"ADD", [AReg #"AX"; AIv]);
    (0x06, #"PUSH", [AReg #"ES"]);
    (0x07, #"POP", [AReg #"ES"]);
    (0x08, #"OR", [AEb; AGb]);
    (0x09, #"OR", [AEv; AGv]);
    (0x0A, #"OR", [AGb; AEb]);
    (0x0B, #"OR", [AGv; AEv]);
    (0x0C, #"OR", [AReg #"AL"; AIb]);
    (0x0D, #"OR", [AReg #"AX"; AIv]);
    (0x0E, #"PUSH", [AReg #"CS"]);
    (0x10, #"ADC", [AEb; AGb]);
    (0x11, #"ADC", [AEv; AGv]);
    (0x12, #"ADC", [AGb; AEb]);
    (0x13, #"ADC", [AGv; AEv]);
    (0x14, #"ADC", [AReg #"AL"; AIb]);
    (0x15, #"ADC", [AReg #"AX"; AIv]);
    (0x16, #"PUSH", [AReg #"SS"]);
    (0x17, #"POP", [AReg #"SS"]);
    (0x18, #"SBB", [AEb; AGb]);
    (0x19, #"SBB", [AEv; AGv]);
    (0x1A, #"SBB", [AGb; AEb]);
    (0x1B, #"SBB", [AGv; AEv]);
    (0x1C, #"SBB", [AReg #"AL"; AIb]);
    (0x1D, #"SBB", [AReg #"AX"; AIv]);
    (0x1E, #"PUSH", [AReg #"DS"]);
    (0x1F, #"POP", [AReg #"DS"]);
    (0x20, #"AND", [AEb; AGb]);
    (0x21, #"AND", [AEv; AGv]);
    (0x22, #"AND", [AGb; AEb]);
    (0x23, #"AND", [AGv; AEv]);
    (0x24, #"AND", [AReg #"AL"; AIb]);
    (0x25, #"AND", [AReg #"AX"; AIv]);
    (0x27, #"DAA", []);
    (0x28, #"SUB", [AEb; AGb]);
    (0x29, #"SUB", [AEv; AGv]);
    (0x2A, #"SUB", [AGb; AEb]);
    (0x2B, #"SUB", [AGv; AEv]);
    (0x2C, #"SUB", [AReg #"AL"; AIb]);
    (0x2D, #"SUB", [AReg #"AX"; AIv]);
    (0x2F, #"DAS", []);
    (0x30, #"XOR", [AEb; AGb]);
    (0x31, #"XOR", [AEv; AGv]);
    (0x32, #"XOR", [AGb; AEb]);
    (0x33, #"XOR", [AGv; AEv]);
    (0x34, #"XOR", [AReg #"AL"; AIb]);
    (0x35, #"XOR", [AReg #"AX"; AIv]);
    (0x37, #"AAA", []);
    (0x38, #"CMP", [AEb; AGb]);
    (0x39, #"CMP", [AEv; AGv]);
    (0x3A, #"CMP", [AGb; AEb]);
    (0x3B, #"CMP", [AGv; AEv]);
    (0x3C, #"CMP", [AReg #"AL"; AIb]);
    (0x3D, #"CMP", [AReg #"AX"; AIv]);
    (0x3F, #"AAS", []);
    (0x40, #"INC", [AReg #"AX"]);
    (0x41, #"INC", [AReg #"CX"]);
    (0x42, #"INC", [AReg #"DX"]);
    (0x43, #"INC", [AReg #"BX"]);
    (0x44, #"INC", [AReg #"SP"]);
    (0x45, #"INC", [AReg #"BP"]);
    (0x46, #"INC", [AReg #"SI"]);
    (0x47, #"INC", [AReg #"DI"]);
    (0x48, #"DEC", [AReg #"AX"]);
    (0x49, #"DEC", [AReg #"CX"]);
    (0x4A, #"DEC", [AReg #"DX"]);
    (0x4B, #"DEC", [AReg #"BX"]);
    (0x4C, #"DEC", [AReg #"SP"]);
    (0x4D, #"DEC", [AReg #"BP"]);
    (0x4E, #"DEC", [AReg #"SI"]);
    (0x4F, #"DEC", [AReg #"DI"]);
    (0x50, #"PUSH", [AReg #"AX"]);
    (0x51, #"PUSH", [AReg #"CX"]);
    (0x52, #"PUSH", [AReg #"DX"]);
    (0x53, #"PUSH", [AReg #"BX"]);
    (0x54, #"PUSH", [AReg #"SP"]);
    (0x55, #"PUSH", [AReg #"BP"]);
    (0x56, #"PUSH", [AReg #"SI"]);
    (0x57, #"PUSH", [AReg #"DI"]);
    (0x58, #"POP", [AReg #"AX"]);
    (0x59, #"POP", [AReg #"CX"]);
    (0x5A, #"POP", [AReg #"DX"]);
    (0x5B, #"POP", [AReg #"BX"]);
    (0x5C, #"POP", [AReg #"SP"]);
    (0x5D, #"POP", [AReg #"BP"]);
    (0x5E, #"POP", [AReg #"SI"]);
    (0x5F, #"POP", [AReg #"DI"]);
    (0x70, #"JO", [AJb]);
    (0x71, #"JNO", [AJb]);
    (0x72, #"JB", [AJb]);
    (0x73, #"JNB", [AJb]);
    (0x74, #"JZ", [AJb]);
    (0x75, #"JNZ", [AJb]);
    (0x76, #"JBE", [AJb]);
    (0x77, #"JA", [AJb]);
    (0x78, #"JS", [AJb]);
    (0x79, #"JNS", [AJb]);
    (0x7A, #"JPE", [AJb]);
    (0x7B, #"JPO", [AJb]);
    (0x7C, #"JL", [AJb]);
    (0x7D, #"JGE", [AJb]);
    (0x7E, #"JLE", [AJb]);
    (0x7F, #"JG", [AJb]);
    (0x84, #"TEST", [AGb; AEb]);
    (0x85, #"TEST", [AGv; AEv]);
    (0x86, #"XCHG", [AGb; AEb]);
    (0x87, #"XCHG", [AGv; AEv]);
    (0x88, #"MOV", [AEb; AGb]);
    (0x89, #"MOV", [AEv; AGv]);
    (0x8A, #"MOV", [AGb; AEb]);
    (0x8B, #"MOV", [AGv; AEv]);
    (0x8C, #"MOV", [AEv; ASw]);
    (0x8D, #"LEA", [AGv; AM]);
    (0x8E, #"MOV", [ASw; AEv]);
    (0x8F, #"POP", [AEv]);
    (0x90, #"NOP", []);
    (0x91, #"XCHG", [AReg #"CX"; AReg #"AX"]);
    (0x92, #"XCHG", [AReg #"DX"; AReg #"AX"]);
    (0x93, #"XCHG", [AReg #"BX"; AReg #"AX"]);
    (0x94, #"XCHG", [AReg #"SP"; AReg #"AX"]);
    (0x95, #"XCHG", [AReg #"BP"; AReg #"AX"]);
    (0x96, #"XCHG", [AReg #"SI"; AReg #"AX"]);
    (0x97, #"XCHG", [AReg #"DI"; AReg #"AX"]);
    (0x98, #"CBW", []);
    (0x99, #"CWD", []);
    (0x9A, #"CALL", [AAp]);
    (0x9B, #"WAIT", []);
    (0x9C, #"PUSHF", []);
    (0x9D, #"POPF", []);
    (0x9E, #"SAHF", []);
    (0x9F, #"LAHF", []);
    (0xA0, #"MOV", [AReg #"AL"; AOb]);
    (0xA1, #"MOV", [AReg #"AX"; AOv]);
    (0xA2, #"MOV", [AOb; AReg #"AL"]);
    (0xA3, #"MOV", [AOv; AReg #"AX"]);
    (0xA4, #"MOVSB", []);
    (0xA5, #"MOVSW", []);
    (0xA6, #"CMPSB", []);
    (0xA7, #"CMPSW", []);
    (0xA8, #"TEST", [AReg #"AL"; AIb]);
    (0xA9, #"TEST", [AReg #"AX"; AIv]);
    (0xAA, #"STOSB", []);
    (0xAB, #"STOSW", []);
    (0xAC, #"LODSB", []);
    (0xAD, #"LODSW", []);
    (0xAE, #"SCASB", []);
    (0xAF, #"SCASW", []);
    (0xB0, #"MOV", [AReg #"AL"; AIb]);
    (0xB1, #"MOV", [AReg #"CL"; AIb]);
    (0xB2, #"MOV", [AReg #"DL"; AIb]);
    (0xB3, #"MOV", [AReg #"BL"; AIb]);
    (0xB4, #"MOV", [AReg #"AH"; AIb]);
    (0xB5, #"MOV", [AReg #"CH"; AIb]);
    (0xB6, #"MOV", [AReg #"DH"; AIb]);
    (0xB7, #"MOV", [AReg #"BH"; AIb]);
    (0xB8, #"MOV", [AReg #"AX"; AIv]);
    (0xB9, #"MOV", [AReg #"CX"; AIv]);
    (0xBA, #"MOV", [AReg #"DX"; AIv]);
    (0xBB, #"MOV", [AReg #"BX"; AIv]);
    (0xBC, #"MOV", [AReg #"SP"; AIv]);
    (0xBD, #"MOV", [AReg #"BP"; AIv]);
    (0xBE, #"MOV", [AReg #"SI"; AIv]);
    (0xBF, #"MOV", [AReg #"DI"; AIv]);
    (0xC2, #"RET", [AIv]);
    (0xC3, #"RET", []);
    (0xC4, #"LES", [AGv; AMp]);
    (0xC5, #"LDS", [AGv; AMp]);
    (0xC6, #"MOV", [AEb; AIb]);
    (0xC7, #"MOV", [AEv; AIv]);
    (0xCA, #"RETF", [AIv]);
    (0xCB, #"RETF", []);
    (0xCC, #"INT", [A3]);
    (0xCD, #"INT", [AIb]);
    (0xCE, #"INTO", []);
    (0xCF, #"IRET", []);
    (0xD4, #"AAM", [AI0]);
    (0xD5, #"AAD", [AI0]);
    (0xD4, #"AAM", []);
    (0xD5, #"AAD", []);
    (0xD7, #"XLAT", []);
    (0xE0, #"LOOPNZ", [AJb]);
    (0xE1, #"LOOPZ", [AJb]);
    (0xE2, #"LOOP", [AJb]);
    (0xE3, #"JCXZ", [AJb]);
    (0xE4, #"IN", [AReg #"AL"; AIb]);
    (0xE5, #"IN", [AReg #"AX"; AIb]);
    (0xE6, #"OUT", [AIb; AReg #"AL"]);
    (0xE7, #"OUT", [AIb; AReg #"AX"]);
    (0xE8, #"CALL", [AJv]);
    (0xE9, #"JMP", [AJv]);
    (0xEA, #"JMP", [AAp]);
    (0xEB, #"JMP", [AJb]);
    (0xEC, #"IN", [AReg #"AL"; AReg #"DX"]);
    (0xED, #"IN", [AReg #"AX"; AReg #"DX"]);
    (0xEE, #"OUT", [AReg #"DX"; AReg #"AL"]);
    (0xEF, #"OUT", [AReg #"DX"; AReg #"AX"]);
    (0xF0, #"LOCK", []);
    (0xF2, #"REPNZ", []);
    (0xF3, #"REPZ", []);
    (0xF4, #"HLT", []);
    (0xF5, #"CMC", []);
    (0xF8, #"CLC", []);
    (0xF9, #"STC", []);
    (0xFA, #"CLI", []);
    (0xFB, #"STI", []);
    (0xFC, #"CLD", []);
    (0xFD, #"STD", []);
    (0xF706, #"DIV", [AEv]);
    (0xF704, #"MUL", [AEv]);
    (0xD004, #"SHL", [AEb]);
    (0xD104, #"SHL", [AEv]);
    (0xD005, #"SHR", [AEb]);
    (0xD105, #"SHR", [AEv])
  ].

(** cpu/intel8086.py:581-592: the operands of one condition; None if one of them does not match *)
Fixpoint run_args (args : list arg) (tokens : list str) (index : nat) (m : modrm) (blob : bytes) : M (option bytes) :=
  match args with
  | [] => ret (Some blob)
  | a :: rest =>
      let! r := run_arg a tokens index m in
      match r with
      | None => ret None
      | Some (delta, b, m) => run_args rest tokens (index + delta) m (blob ++ b)
      end
  end.
(** cpu/intel8086.py:570-594 __call__ *)
Fixpoint i86_call (conditions : list (Z * list arg)) (tokens : list str) : M (option bytes) :=
  match conditions with
  | [] => ret None
  | (base, args) :: rest =>
      let '(base, m) := if base >? 0xFF then (Z.shiftr base 8, Modrm None (Some (Z.land base 0xFF)) None None)
                        else (base, Modrm None None None None) in
      match args with
      | [] =>
          if Nat.eqb (length tokens) 1 then let! b := lift (pack_byte [Some base]) in ret (Some b)
          else araise InvalidOpCodeArguments
      | _ =>
          if Nat.ltb (length tokens) 2 then i86_call rest tokens else
          let! r := run_args args tokens 1 m [] in
          match r with
          | None => i86_call rest tokens
          | Some blob => let! b := lift (pack_byte [Some base]) in ret (Some (b ++ blob))
          end
      end
  end.

(** cpu/intel8086.py:611-619 register_instructions: the conditions of each name, in the order of
    the table *)
Fixpoint i86_add (name : str) (v : Z * list arg) (t : list (str * list (Z * list arg))) : list (str * list (Z * list arg)) :=
  match t with
  | [] => [(name, [v])]
  | (n, vs) :: rest => if str_eqb n name then (n, vs ++ [v]) :: rest else (n, vs) :: i86_add name v rest
  end.
(** cpu/intel8086.py:611-619 *)
Definition i86_opcodes : list (str * list (Z * list arg)) :=
  fold_left (fun t '(code, name, args) => i86_add (upper name) (code, args) t) i86_table [].
(** cpu/intel8086.py:611-619: registered under their names *)
Definition i86_ops : list (str * opcode) := map (fun '(n, vs) => (n, OFun (i86_call vs))) i86_opcodes.
(** cpu/intel8086.py:597-619 AssemblerIntel8086 *)
Definition i8086 (e : env) : cfg := mk_cfg i86_p e i86_ops [] [] [].
