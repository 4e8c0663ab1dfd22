(** Model of cpu/x86.py *)
From Verif Require Import Py Utils Tokenizer State Assembler Instr.
Local Open Scope Z_scope.

(** cpu/x86.py:1977-1989 class attributes *)
Definition x86_p : pcfg :=
  PCfg [#"0x"; #"0h"; #"$0"] [#"h"] [#"0b"; #"0y"] [#"b"; #"y"] [#"0o"; #"0q"] [#"o"; #"q"] [#"0d"] [#"d"] false 0 false.

(** cpu/x86.py:7 REGS8 *)
Definition x_regs8 : list str := [#"AL"; #"CL"; #"DL"; #"BL"; #"AH"; #"CH"; #"DH"; #"BH"].
(** cpu/x86.py:8 REGS16 *)
Definition x_regs16 : list str := [#"AX"; #"CX"; #"DX"; #"BX"; #"SP"; #"BP"; #"SI"; #"DI"].
(** cpu/x86.py:9 REGS32 *)
Definition x_regs32 : list str := [#"EAX"; #"ECX"; #"EDX"; #"EBX"; #"ESP"; #"EBP"; #"ESI"; #"EDI"].
(** cpu/x86.py:10 REGS64 *)
Definition x_regs64 : list str := [#"RAX"; #"RCX"; #"RDX"; #"RBX"; #"RSP"; #"RBP"; #"RSI"; #"RDI"].
(** cpu/x86.py:11 CREGS *)
Definition x_cregs : list str := [#"CR0"; #"CR1"; #"CR2"; #"CR3"; #"CR4"; #"CR5"; #"CR6"; #"CR7"].
(** cpu/x86.py:12 SEGMENTS *)
Definition x_segments : list str := [#"ES"; #"CS"; #"SS"; #"DS"].
(** cpu/x86.py:14 ALL_REGS *)
Definition x_all : list str := x_regs8 ++ x_regs16 ++ x_regs32 ++ x_regs64 ++ x_cregs ++ x_segments.

(** The dictionary modrm, a missing key being None.  The displacement is stored as None
    where there is none (cpu/x86.py:49-63), which its only reader (line 23) does not tell
    from a missing key. *)
Record xrm := Xrm { xm_mod : option Z; xm_reg : option Z; xm_rm : option Z; xm_disp : option str; xm_bits : option Z }.
(** No line of /repo of its own: modrm[key] *)
Definition xkey (v : option Z) : M Z := match v with Some z => ret z | None => praise KeyError end.
(** modrm['reg'] = v; cpu/x86.py:142, 151, 160, 481, 562 *)
Definition xset_reg (m : xrm) (v : Z) : xrm := Xrm (xm_mod m) (Some v) (xm_rm m) (xm_disp m) (xm_bits m).
(** modrm['mod'] = v; modrm['rm'] = w; cpu/x86.py:102-103, 111-112, 120-121, 482-483, 554-555 *)
Definition xset_rm (m : xrm) (v w : Z) : xrm := Xrm (Some v) (xm_reg m) (Some w) (xm_disp m) (xm_bits m).
(** modrm['bits'] = v; cpu/x86.py:105, 114, 123, 144, 153, 162, 174, 178, 183, 221, 226, 231, 245, 250 *)
Definition xset_bits (m : xrm) (v : Z) : xrm := Xrm (xm_mod m) (xm_reg m) (xm_rm m) (xm_disp m) (Some v).

(** lstrip('+'); cpu/x86.py:26, 33, 40 *)
Fixpoint x_lstrip (s : str) : str :=
  match s with
  | c :: t => if Ascii.eqb c "+" then x_lstrip t else s
  | [] => []
  end.
(** No line of /repo of its own: a label without further options *)
Definition xlab (t : str) (size bits off rel : Z) : labeldata := LabelData t size bits rel off 1 None None None.

(** cpu/x86.py:17-45 _build_modrm *)
Definition x_modrm (base : bytes) (m : xrm) : M bytes :=
  let! md := xkey (xm_mod m) in
  let! rg := xkey (xm_reg m) in
  let! rm := xkey (xm_rm m) in
  let! v := lift (pack_bits 0 [((7, 6), md); ((5, 3), rg); ((2, 0), rm)]) in
  let! blob := lift (pack_byte [Some v]) in
  match xm_disp m with
  | Some d =>
      let! bits := xkey (xm_bits m) in
      if bits =? 16 then
        let! v := parse_integer_or_label x86_p (xlab (x_lstrip d) 2 16 (zlen base) 0) true in
        let! b := lift (pack_le16s [Some v]) in ret (blob ++ b)
      else if bits =? 32 then
        let! v := parse_integer_or_label x86_p (xlab (x_lstrip d) 4 32 (zlen base) 0) true in
        let! b := lift (pack_le32s [Some v]) in ret (blob ++ b)
      else if bits =? 64 then
        let! v := parse_integer_or_label x86_p (xlab (x_lstrip d) 8 64 (zlen base) 0) true in
        let! b := lift (pack_le64s [Some v]) in ret (blob ++ b)
      else ret blob
  | None => ret blob
  end.
(** b'' if 'reg' not in modrm else _build_modrm(...); cpu/x86.py:108, 117, 124, 134, 320, 556 *)
Definition x_build_if_reg (base : bytes) (m : xrm) : M bytes :=
  match xm_reg m with None => ret [] | Some _ => x_modrm base m end.

(** cpu/x86.py:49-63: words and r/m *)
Definition x_plain : list (list pattern * Z) :=
  let bx := PTuple [#"BX"; #"EBX"; #"RBX"] in let bp := PTuple [#"BP"; #"EBP"; #"RBP"] in
  let si := PTuple [#"SI"; #"ESI"; #"RSI"] in let di := PTuple [#"DI"; #"EDI"; #"RDI"] in let plus := PStr #"+" in
  [ ([bx; plus; si], 0); ([bx; plus; di], 1); ([bp; plus; si], 2); ([bp; plus; di], 3);
    ([si], 4); ([di], 5); ([bp], 6); ([bx], 7) ].
(** cpu/x86.py:66-80: words before the sign and r/m *)
Definition x_displaced : list (list str * Z) :=
  [ ([#"BX"; #"+"; #"SI"], 0); ([#"BX"; #"+"; #"DI"], 1); ([#"BP"; #"+"; #"SI"], 2); ([#"BP"; #"+"; #"DI"], 3);
    ([#"SI"], 4); ([#"DI"], 5); ([#"BP"], 6); ([#"BX"], 7) ].
(** cpu/x86.py:48-82 _get_modrm_mod: mod, r/m, number of words and displacement; None for
    InvalidOpCodeArguments, which every caller catches (lines 131-136, 317-322). *)
Definition x_memory_mod (arg : list str) : option (Z * Z * nat * option str) :=
  match find (fun '(ps, _) => match_ arg ps) x_plain with
  | Some (ps, rm) => Some (0, rm, length ps, None)
  | None =>
      match find (fun '(ws, _) => match_ arg (map PStr ws ++ [PTuple [#"+"; #"-"]; PAny])) x_displaced with
      | Some (ws, rm) =>
          Some (2, rm, (length ws + 2)%nat, Some (nth (length ws) arg [] ++ nth (length ws + 1) arg []))
      | None => None
      end
  end.

(** cpu/x86.py:85-88 _apply_Z: base[-1] |= value *)
Fixpoint x_or_last (base : bytes) (v : Z) : bytes :=
  match base with
  | [] => []
  | [b] => [Z.lor b v]
  | b :: t => b :: x_or_last t v
  end.
(** base.insert(0, 0x66) depending on the operand size and bits; cpu/x86.py:106-107, 115-116, 145-146,
    154-155, 172-173, 181-182, 222-223, 227-228, 248-249 *)
Definition x_prefix (size bits : Z) (base : bytes) : bytes :=
  if size =? 16 then (if bits =? 16 then base else 0x66 :: base)
  else if size =? 32 then (if bits =? 16 then 0x66 :: base else base)
  else base.
(** The same with bits in modrm, unless it is there already; cpu/x86.py:104-107, 113-116, 122-123, 143-146,
    152-155, 161-162 *)
Definition x_sized (size bits : Z) (base : bytes) (m : xrm) : bytes * xrm :=
  match xm_bits m with
  | Some _ => (base, m)
  | None => (x_prefix size bits base, xset_bits m size)
  end.
(** A register of 16, 32 or 64 bits: its size and number; cpu/x86.py:101, 110, 119, 141, 150, 159, 170,
    176, 180.  The tables have no name in common, so their order does not matter. *)
Definition x_register (t : str) : option (Z * Z) :=
  match index_of t x_regs16, index_of t x_regs32, index_of t x_regs64 with
  | Some i, _, _ => Some (16, Z.of_nat i)
  | None, Some i, _ => Some (32, Z.of_nat i)
  | None, None, Some i => Some (64, Z.of_nat i)
  | None, None, None => None
  end.

(** The operand functions.  APass stands for all those which are just pass and so return None
    (cpu/x86.py:91-96, 188-205, 235-236, 255-308, 325-342, 359-452, 470-475, 495-548, 568-697). *)
Inductive arg := AEvqp | AGvqp | AZvqp | AIvds | ArAX | AZvq | AM | AIvqp | AJvds | AMs | ARd | ACd | APass.
(** No line of /repo of its own: what an operand function returns, with the dictionary it
    has changed: number of tokens, base, bytes. *)
Definition xresult := option (nat * bytes * bytes * xrm).

(** list.index(x, start) for the closing bracket; cpu/x86.py:128, 314 *)
Definition x_index_from (t : str) (start : nat) (l : list str) : option nat :=
  option_map (fun i => (start + i)%nat) (index_of t (skipn start l)).
(** cpu/x86.py:127-136, 313-322: a place in memory, after its bracket has been seen.
    _build_modrm does not raise InvalidOpCodeArguments. *)
Definition x_memory (tokens : list str) (base : bytes) (index : nat) (m : xrm) : M xresult :=
  match x_index_from #"]" (index + 1) tokens with
  | None => araise InvalidOpCodeArguments
  | Some end_index =>
      match x_memory_mod (firstn (end_index - (index + 1)) (skipn (index + 1) tokens)) with
      | Some (md, rm, delta, d) =>
          let m := Xrm (Some md) (xm_reg m) (Some rm) d (xm_bits m) in
          let! b := x_build_if_reg base m in ret (Some ((2 + delta)%nat, base, b, m))
      | None => ret None
      end
  end.
(** An operand that is no register and no bracket; cpu/x86.py:209, 346, 456 *)
Definition x_value (t : str) : bool := negb (str_in (upper t) (x_all ++ [#"["; #"]"])).
(** A value as immediate; cpu/x86.py:212-216, 349-356 *)
Definition x_imm (t : str) (n : Z) (base : bytes) (pk : list (option Z) -> res bytes) (m : xrm) : M xresult :=
  let! v := parse_integer_or_label x86_p (xlab t n (8 * n) (zlen base) 0) false in
  let! b := lift (pk [Some v]) in ret (Some (1%nat, base, b, m)).

(** cpu/x86.py:91-697 *)
Definition x_run_arg (a : arg) (tokens : list str) (base : bytes) (index : nat) (m : xrm) : M xresult :=
  match a with
  | APass => ret None
  | AEvqp => (* 99-136 *)
      let! t := tok_at tokens index in
      match x_register (upper t) with
      | Some (size, i) =>
          let! s := get in
          let (base, m) := x_sized size (x86_bits s) base (xset_rm m 3 i) in
          let! b := x_build_if_reg base m in ret (Some (1%nat, base, b, m))
      | None => if str_eqb (upper t) #"[" then x_memory tokens base index m else ret None
      end
  | AGvqp => (* 139-165 *)
      let! t := tok_at tokens index in
      match x_register (upper t) with
      | Some (size, i) =>
          let! s := get in
          let (base, m) := x_sized size (x86_bits s) base (xset_reg m i) in
          if Nat.ltb 1 index then let! b := x_modrm base m in ret (Some (1%nat, base, b, m))
          else ret (Some (1%nat, base, [], m))
      | None => ret None
      end
  | AZvqp => (* 168-185 *)
      let! t := tok_at tokens index in
      match x_register (upper t) with
      | Some (size, i) =>
          let! s := get in
          ret (Some (1%nat, x_prefix size (x86_bits s) (x_or_last base i), [], xset_bits m size))
      | None => ret None
      end
  | AIvds => (* 208-216 *)
      let! t := tok_at tokens index in
      if x_value t then
        match xm_bits m with
        | Some 16 => x_imm t 2 base pack_le16u m
        | Some 32 => x_imm t 4 base pack_le32u m
        | _ => ret None
        end
      else ret None
  | ArAX => (* 219-232 *)
      let! t := tok_at tokens index in
      let! s := get in
      if str_eqb (upper t) #"AX" then ret (Some (1%nat, x_prefix 16 (x86_bits s) base, [], xset_bits m 16)) else
      if str_eqb (upper t) #"EAX" then ret (Some (1%nat, x_prefix 32 (x86_bits s) base, [], xset_bits m 32)) else
      if str_eqb (upper t) #"RAX" then ret (Some (1%nat, base, [], xset_bits m 64)) else ret None
  | AZvq => (* 239-252 *)
      let! t := tok_at tokens index in
      let! s := get in
      match index_of (upper t) x_regs64 with
      | Some i =>
          let base := x_or_last base (Z.of_nat i) in
          ret (Some (1%nat, (if x86_bits s =? 16 then 0x66 :: base else base), [], xset_bits m 64))
      | None =>
          match index_of (upper t) x_regs16 with
          | Some i => ret (Some (1%nat, x_or_last (x_prefix 16 (x86_bits s) base) (Z.of_nat i), [], xset_bits m 16))
          | None => ret None
          end
      end
  | AM => (* 311-322 *)
      let! t := tok_at tokens index in
      if str_eqb t #"[" then x_memory tokens base index m else ret None
  | AIvqp => (* 345-356 *)
      let! t := tok_at tokens index in
      if x_value t then
        match xm_bits m with
        | Some 16 => x_imm t 2 base pack_le16u m
        | Some 32 => x_imm t 4 base pack_le32u m
        | Some 64 => x_imm t 8 base pack_le64u m
        | _ => ret None
        end
      else ret None
  | AJvds => (* 455-467 *)
      let! t := tok_at tokens index in
      if x_value t then
        let! s := get in
        if x86_bits s =? 16 then
          let! v := parse_integer_or_label x86_p (xlab t 2 16 (zlen base) (pc s + zlen base + 2)) false in
          let! b := lift (pack_le16u [Some v]) in ret (Some (1%nat, base, b, m))
        else if (x86_bits s =? 32) || (x86_bits s =? 64) then
          let! v := parse_integer_or_label x86_p (xlab t 2 16 (zlen base) (pc s + zlen base + 4)) false in
          let! b := lift (pack_le32u [Some v]) in ret (Some (1%nat, base, b, m))
        else ret None
      else ret None
  | AMs => (* 478-492 *)
      match firstn 3 (skipn index tokens) with
      | [_; t; _] as l =>
          if match_ l [PStr #"["; PAny; PStr #"]"] && negb (str_in (upper t) x_all) then
            let m := xset_rm (xset_reg m 0) 0 6 in
            let! s := get in
            if x86_bits s =? 16 then
              let! b := x_modrm base m in
              let! v := parse_integer_or_label x86_p (xlab t 2 16 (zlen base) 0) false in
              let! a := lift (pack_le16u [Some v]) in ret (Some (3%nat, base, b ++ a, m))
            else if x86_bits s =? 32 then
              let! b := x_modrm base m in
              let! v := parse_integer_or_label x86_p (xlab t 4 32 (zlen base) 0) false in
              let! a := lift (pack_le32u [Some v]) in ret (Some (3%nat, base, b ++ a, m))
            else if x86_bits s =? 64 then
              let! b := x_modrm base m in
              let! v := parse_integer_or_label x86_p (xlab t 8 64 (zlen base) 0) false in
              let! a := lift (pack_le64u [Some v]) in ret (Some (3%nat, base, b ++ a, m))
            else ret None
          else ret None
      | _ => ret None
      end
  | ARd => (* 551-556 *)
      let! t := tok_at tokens index in
      match index_of (upper t) x_regs32 with
      | Some i =>
          let m := xset_rm m 3 (Z.of_nat i) in
          let! b := x_build_if_reg base m in ret (Some (1%nat, base, b, m))
      | None => ret None
      end
  | ACd => (* 559-565 *)
      let! t := tok_at tokens index in
      match index_of (upper t) x_cregs with
      | Some i =>
          let m := xset_reg m (Z.of_nat i) in
          if Nat.ltb 1 index then let! b := x_modrm base m in ret (Some (1%nat, base, b, m))
          else ret (Some (1%nat, base, [], m))
      | None => ret None
      end
  end.

(** cpu/x86.py:700-1923 OPCODES_TABLE *)
Definition x86_table : list (Z * str * list arg) :=
  [
    (0x0, #"ADD", [APass; APass]);
    (0x1, #"ADD", [AEvqp; AGvqp]);
    (0x2, #"ADD", [APass; APass]);
    (0x3, #"ADD", [AGvqp; AEvqp]);
    (0x4, #"ADD", [APass; APass]);
    (0x5, #"ADD", [ArAX; AIvds]);
    (0x8, #"OR", [APass; APass]);
    (0x9, #"OR", [AEvqp; AGvqp]);
    (0xA, #"OR", [APass; APass]);
    (0xB, #"OR", [AGvqp; AEvqp]);
    (0xC, #"OR", [APass; APass]);
    (0xD, #"OR", [ArAX; AIvds]);
    (0x10, #"ADC", [APass; APass]);
    (0x11, #"ADC", [AEvqp; AGvqp]);
    (0x12, #"ADC", [APass; APass]);
    (0x13, #"ADC", [AGvqp; AEvqp]);
    (0x14, #"ADC", [APass; APass]);
    (0x15, #"ADC", [ArAX; AIvds]);
    (0x18, #"SBB", [APass; APass]);
    (0x19, #"SBB", [AEvqp; AGvqp]);
    (0x1A, #"SBB", [APass; APass]);
    (0x1B, #"SBB", [AGvqp; AEvqp]);
    (0x1C, #"SBB", [APass; APass]);
    (0x1D, #"SBB", [ArAX; AIvds]);
    (0x20, #"AND", [APass; APass]);
    (0x21, #"AND", [AEvqp; AGvqp]);
    (0x22, #"AND", [APass; APass]);
    (0x23, #"AND", [AGvqp; AEvqp]);
    (0x24, #"AND", [APass; APass]);
    (0x25, #"AND", [ArAX; AIvds]);
    (0x27, #"DAA", []);
    (0x28, #"SUB", [APass; APass]);
    (0x29, #"SUB", [AEvqp; AGvqp]);
    (0x2A, #"SUB", [APass; APass]);
    (0x2B, #"SUB", [AGvqp; AEvqp]);
    (0x2C, #"SUB", [APass; APass]);
    (0x2D, #"SUB", [ArAX; AIvds]);
    (0x2E, #"NTAKEN", []);
    (0x2F, #"DAS", []);
    (0x30, #"XOR", [APass; APass]);
    (0x31, #"XOR", [AEvqp; AGvqp]);
    (0x32, #"XOR", [APass; APass]);
    (0x33, #"XOR", [AGvqp; AEvqp]);
    (0x34, #"XOR", [APass; APass]);
    (0x35, #"XOR", [ArAX; AIvds]);
    (0x37, #"AAA", []);
    (0x38, #"CMP", [APass]);
    (0x39, #"CMP", [AEvqp]);
    (0x3A, #"CMP", [APass]);
    (0x3B, #"CMP", [AGvqp]);
    (0x3C, #"CMP", [APass]);
    (0x3D, #"CMP", [ArAX]);
    (0x3E, #"TAKEN", []);
    (0x3F, #"AAS", []);
    (0x40, #"INC", [APass]);
    (0x40, #"REX", []);
    (0x41, #"REX.B", []);
    (0x42, #"REX.X", []);
    (0x43, #"REX.XB", []);
    (0x44, #"REX.R", []);
    (0x45, #"REX.RB", []);
    (0x46, #"REX.RX", []);
    (0x47, #"REX.RXB", []);
    (0x48, #"DEC", [APass]);
    (0x48, #"REX.W", []);
    (0x49, #"REX.WB", []);
    (0x4A, #"REX.WX", []);
    (0x4B, #"REX.WXB", []);
    (0x4C, #"REX.WR", []);
    (0x4D, #"REX.WRB", []);
    (0x4E, #"REX.WRX", []);
    (0x4F, #"REX.WRXB", []);
    (0x50, #"PUSH", [APass]);
    (0x50, #"PUSH", [AZvq]);
    (0x58, #"POP", [APass]);
    (0x58, #"POP", [AZvq]);
    (0x60, #"PUSHA", []);
    (0x60, #"PUSHAD", []);
    (0x61, #"POPA", []);
    (0x61, #"POPAD", []);
    (0x62, #"BOUND", [APass]);
    (0x63, #"ARPL", [APass]);
    (0x63, #"MOVSXD", [APass; APass]);
    (0x64, #"ALTER", []);
    (0x68, #"PUSH", [APass]);
    (0x69, #"IMUL", [AGvqp; AEvqp]);
    (0x6A, #"PUSH", [APass]);
    (0x6B, #"IMUL", [AGvqp; AEvqp]);
    (0x6C, #"INS", [APass; APass]);
    (0x6C, #"INSB", []);
    (0x6D, #"INS", [APass; APass]);
    (0x6D, #"INSW", []);
    (0x6D, #"INS", [APass; APass]);
    (0x6D, #"INSD", []);
    (0x6E, #"OUTS", [APass; APass]);
    (0x6E, #"OUTSB", []);
    (0x6F, #"OUTS", [APass; APass]);
    (0x6F, #"OUTSW", []);
    (0x6F, #"OUTS", [APass; APass]);
    (0x6F, #"OUTSD", []);
    (0x70, #"JO", [APass]);
    (0x71, #"JNO", [APass]);
    (0x72, #"JB", [APass]);
    (0x72, #"JNAE", [APass]);
    (0x72, #"JC", [APass]);
    (0x73, #"JNB", [APass]);
    (0x73, #"JAE", [APass]);
    (0x73, #"JNC", [APass]);
    (0x74, #"JZ", [APass]);
    (0x74, #"JE", [APass]);
    (0x75, #"JNZ", [APass]);
    (0x75, #"JNE", [APass]);
    (0x76, #"JBE", [APass]);
    (0x76, #"JNA", [APass]);
    (0x77, #"JNBE", [APass]);
    (0x77, #"JA", [APass]);
    (0x78, #"JS", [APass]);
    (0x79, #"JNS", [APass]);
    (0x7A, #"JP", [APass]);
    (0x7A, #"JPE", [APass]);
    (0x7B, #"JNP", [APass]);
    (0x7B, #"JPO", [APass]);
    (0x7C, #"JL", [APass]);
    (0x7C, #"JNGE", [APass]);
    (0x7D, #"JNL", [APass]);
    (0x7D, #"JGE", [APass]);
    (0x7E, #"JLE", [APass]);
    (0x7E, #"JNG", [APass]);
    (0x7F, #"JNLE", [APass]);
    (0x7F, #"JG", [APass]);
    (0x80, #"ADD", [APass; APass]);
    (0x80, #"OR", [APass; APass]);
    (0x80, #"ADC", [APass; APass]);
    (0x80, #"SBB", [APass; APass]);
    (0x80, #"AND", [APass; APass]);
    (0x80, #"SUB", [APass; APass]);
    (0x80, #"XOR", [APass; APass]);
    (0x80, #"CMP", [APass]);
    (0x81, #"ADD", [AEvqp; AIvds]);
    (0x81, #"OR", [AEvqp; AIvds]);
    (0x81, #"ADC", [AEvqp; AIvds]);
    (0x81, #"SBB", [AEvqp; AIvds]);
    (0x81, #"AND", [AEvqp; AIvds]);
    (0x81, #"SUB", [AEvqp; AIvds]);
    (0x81, #"XOR", [AEvqp; AIvds]);
    (0x81, #"CMP", [AEvqp]);
    (0x82, #"ADD", [APass; APass]);
    (0x82, #"OR", [APass; APass]);
    (0x82, #"ADC", [APass; APass]);
    (0x82, #"SBB", [APass; APass]);
    (0x82, #"AND", [APass; APass]);
    (0x82, #"SUB", [APass; APass]);
    (0x82, #"XOR", [APass; APass]);
    (0x82, #"CMP", [APass]);
    (0x83, #"ADD", [AEvqp; APass]);
    (0x83, #"OR", [AEvqp; APass]);
    (0x83, #"ADC", [AEvqp; APass]);
    (0x83, #"SBB", [AEvqp; APass]);
    (0x83, #"AND", [AEvqp; APass]);
    (0x83, #"SUB", [AEvqp; APass]);
    (0x83, #"XOR", [AEvqp; APass]);
    (0x83, #"CMP", [AEvqp]);
    (0x84, #"TEST", [APass]);
    (0x85, #"TEST", [AEvqp]);
    (0x86, #"XCHG", [APass]);
    (0x87, #"XCHG", [AGvqp]);
    (0x88, #"MOV", [APass; APass]);
    (0x89, #"MOV", [AEvqp; AGvqp]);
    (0x8A, #"MOV", [APass; APass]);
    (0x8B, #"MOV", [AGvqp; AEvqp]);
    (0x8C, #"MOV", [APass; APass]);
    (0x8C, #"MOV", [APass; APass]);
    (0x8D, #"LEA", [AGvqp; AM]);
    (0x8E, #"MOV", [APass; APass]);
    (0x8F, #"POP", [APass]);
    (0x8F, #"POP", [APass]);
    (0x90, #"XCHG", [AZvqp]);
    (0x90, #"NOP", []);
    (0x90, #"NOP", []);
    (0x90, #"PAUSE", []);
    (0x98, #"CBW", []);
    (0x98, #"CWDE", []);
    (0x98, #"CBW", []);
    (0x98, #"CWDE", []);
    (0x98, #"CDQE", []);
    (0x99, #"CWD", []);
    (0x99, #"CDQ", []);
    (0x99, #"CWD", []);
    (0x99, #"CDQ", []);
    (0x99, #"CQO", []);
    (0x9A, #"CALLF", [APass]);
    (0x9B, #"FWAIT", []);
    (0x9B, #"WAIT", []);
    (0x9C, #"PUSHF", []);
    (0x9C, #"PUSHFD", []);
    (0x9C, #"PUSHF", []);
    (0x9C, #"PUSHFQ", []);
    (0x9D, #"POPF", []);
    (0x9D, #"POPFD", []);
    (0x9D, #"POPF", []);
    (0x9D, #"POPFQ", []);
    (0x9E, #"SAHF", []);
    (0x9F, #"LAHF", []);
    (0xA0, #"MOV", [APass; APass]);
    (0xA1, #"MOV", [ArAX; APass]);
    (0xA2, #"MOV", [APass; APass]);
    (0xA3, #"MOV", [APass; ArAX]);
    (0xA4, #"MOVS", [APass; APass]);
    (0xA4, #"MOVSB", []);
    (0xA5, #"MOVS", [APass; APass]);
    (0xA5, #"MOVSW", []);
    (0xA5, #"MOVS", [APass; APass]);
    (0xA5, #"MOVSD", []);
    (0xA5, #"MOVS", [APass; APass]);
    (0xA5, #"MOVSW", []);
    (0xA5, #"MOVSD", []);
    (0xA5, #"MOVSQ", []);
    (0xA6, #"CMPS", [APass]);
    (0xA6, #"CMPSB", []);
    (0xA7, #"CMPS", [APass]);
    (0xA7, #"CMPSW", []);
    (0xA7, #"CMPS", [APass]);
    (0xA7, #"CMPSD", []);
    (0xA7, #"CMPS", [APass]);
    (0xA7, #"CMPSW", []);
    (0xA7, #"CMPSD", []);
    (0xA7, #"CMPSQ", []);
    (0xA8, #"TEST", [APass]);
    (0xA9, #"TEST", [ArAX]);
    (0xAA, #"STOS", [APass]);
    (0xAA, #"STOSB", []);
    (0xAB, #"STOS", [APass]);
    (0xAB, #"STOSW", []);
    (0xAB, #"STOS", [APass]);
    (0xAB, #"STOSD", []);
    (0xAB, #"STOS", [APass]);
    (0xAB, #"STOSW", []);
    (0xAB, #"STOSD", []);
    (0xAB, #"STOSQ", []);
    (0xAC, #"LODS", [APass]);
    (0xAC, #"LODSB", []);
    (0xAD, #"LODS", [APass]);
    (0xAD, #"LODSW", []);
    (0xAD, #"LODS", [APass]);
    (0xAD, #"LODSD", []);
    (0xAD, #"LODS", [APass]);
    (0xAD, #"LODSW", []);
    (0xAD, #"LODSD", []);
    (0xAD, #"LODSQ", []);
    (0xAE, #"SCAS", [APass]);
    (0xAE, #"SCASB", []);
    (0xAF, #"SCAS", [APass]);
    (0xAF, #"SCASW", []);
    (0xAF, #"SCAS", [APass]);
    (0xAF, #"SCASD", []);
    (0xAF, #"SCAS", [APass]);
    (0xAF, #"SCASW", []);
    (0xAF, #"SCASD", []);
    (0xAF, #"SCASQ", []);
    (0xB0, #"MOV", [APass; APass]);
    (0xB8, #"MOV", [AZvqp; AIvqp]);
    (0xC0, #"ROL", [APass; APass]);
    (0xC0, #"ROR", [APass; APass]);
    (0xC0, #"RCL", [APass; APass]);
    (0xC0, #"RCR", [APass; APass]);
    (0xC0, #"SHL", [APass; APass]);
    (0xC0, #"SAL", [APass; APass]);
    (0xC0, #"SHR", [APass; APass]);
    (0xC0, #"SAL", [APass; APass]);
    (0xC0, #"SHL", [APass; APass]);
    (0xC0, #"SAR", [APass; APass]);
    (0xC1, #"ROL", [AEvqp; APass]);
    (0xC1, #"ROR", [AEvqp; APass]);
    (0xC1, #"RCL", [AEvqp; APass]);
    (0xC1, #"RCR", [AEvqp; APass]);
    (0xC1, #"SHL", [AEvqp; APass]);
    (0xC1, #"SAL", [AEvqp; APass]);
    (0xC1, #"SHR", [AEvqp; APass]);
    (0xC1, #"SAL", [AEvqp; APass]);
    (0xC1, #"SHL", [AEvqp; APass]);
    (0xC1, #"SAR", [AEvqp; APass]);
    (0xC2, #"RETN", []);
    (0xC3, #"RETN", []);
    (0xC3, #"RET", []);
    (0xC6, #"MOV", [APass; APass]);
    (0xC7, #"MOV", [AEvqp; AIvds]);
    (0xC8, #"ENTER", [APass]);
    (0xC8, #"ENTER", [APass]);
    (0xC9, #"LEAVE", []);
    (0xC9, #"LEAVE", []);
    (0xCA, #"RETF", [APass]);
    (0xCB, #"RETF", []);
    (0xCC, #"INT", [APass]);
    (0xCD, #"INT", [APass]);
    (0xCE, #"INTO", []);
    (0xCF, #"IRET", []);
    (0xCF, #"IRETD", []);
    (0xCF, #"IRET", []);
    (0xCF, #"IRETD", []);
    (0xCF, #"IRETQ", []);
    (0xD0, #"ROL", [APass; APass]);
    (0xD0, #"ROR", [APass; APass]);
    (0xD0, #"RCL", [APass; APass]);
    (0xD0, #"RCR", [APass; APass]);
    (0xD0, #"SHL", [APass; APass]);
    (0xD0, #"SAL", [APass; APass]);
    (0xD0, #"SHR", [APass; APass]);
    (0xD0, #"SAL", [APass; APass]);
    (0xD0, #"SHL", [APass; APass]);
    (0xD0, #"SAR", [APass; APass]);
    (0xD1, #"ROL", [AEvqp; APass]);
    (0xD1, #"ROR", [AEvqp; APass]);
    (0xD1, #"RCL", [AEvqp; APass]);
    (0xD1, #"RCR", [AEvqp; APass]);
    (0xD1, #"SHL", [AEvqp; APass]);
    (0xD1, #"SAL", [AEvqp; APass]);
    (0xD1, #"SHR", [AEvqp; APass]);
    (0xD1, #"SAL", [AEvqp; APass]);
    (0xD1, #"SHL", [AEvqp; APass]);
    (0xD1, #"SAR", [AEvqp; APass]);
    (0xD2, #"ROL", [APass; APass]);
    (0xD2, #"ROR", [APass; APass]);
    (0xD2, #"RCL", [APass; APass]);
    (0xD2, #"RCR", [APass; APass]);
    (0xD2, #"SHL", [APass; APass]);
    (0xD2, #"SAL", [APass; APass]);
    (0xD2, #"SHR", [APass; APass]);
    (0xD2, #"SAL", [APass; APass]);
    (0xD2, #"SHL", [APass; APass]);
    (0xD2, #"SAR", [APass; APass]);
    (0xD3, #"ROL", [AEvqp; APass]);
    (0xD3, #"ROR", [AEvqp; APass]);
    (0xD3, #"RCL", [AEvqp; APass]);
    (0xD3, #"RCR", [AEvqp; APass]);
    (0xD3, #"SHL", [AEvqp; APass]);
    (0xD3, #"SAL", [AEvqp; APass]);
    (0xD3, #"SHR", [AEvqp; APass]);
    (0xD3, #"SAL", [AEvqp; APass]);
    (0xD3, #"SHL", [AEvqp; APass]);
    (0xD3, #"SAR", [AEvqp; APass]);
    (0xD4, #"AAM", []);
    (0xD4, #"AMX", [APass]);
    (0xD5, #"AAD", []);
    (0xD5, #"ADX", [APass]);
    (0xD6, #"SALC", []);
    (0xD6, #"SETALC", []);
    (0xD7, #"XLAT", [APass]);
    (0xD7, #"XLATB", []);
    (0xD8, #"FADD", [APass]);
    (0xD8, #"FADD", [APass; APass]);
    (0xD8, #"FMUL", [APass]);
    (0xD8, #"FMUL", [APass; APass]);
    (0xD8, #"FCOM", []);
    (0xD8, #"FCOM", []);
    (0xD8, #"FCOMP", []);
    (0xD8, #"FCOMP", []);
    (0xD8, #"FSUB", [APass]);
    (0xD8, #"FSUB", [APass; APass]);
    (0xD8, #"FSUBR", [APass]);
    (0xD8, #"FSUBR", [APass; APass]);
    (0xD8, #"FDIV", [APass]);
    (0xD8, #"FDIV", [APass; APass]);
    (0xD8, #"FDIVR", [APass]);
    (0xD8, #"FDIVR", [APass; APass]);
    (0xD9, #"FLD", [APass]);
    (0xD9, #"FXCH", []);
    (0xD9, #"FXCH", []);
    (0xD9, #"FST", [APass]);
    (0xD9, #"FNOP", []);
    (0xD9, #"FSTP", [APass]);
    (0xD9, #"FSTP1", [APass]);
    (0xD9, #"FSTP1", [APass]);
    (0xD9, #"FLDENV", [APass]);
    (0xD9, #"FCHS", []);
    (0xD9, #"FABS", []);
    (0xD9, #"FTST", []);
    (0xD9, #"FXAM", []);
    (0xD9, #"FLDCW", [APass]);
    (0xD9, #"FLD1", []);
    (0xD9, #"FLDL2T", []);
    (0xD9, #"FLDL2E", []);
    (0xD9, #"FLDPI", []);
    (0xD9, #"FLDLG2", []);
    (0xD9, #"FLDLN2", []);
    (0xD9, #"FLDZ", []);
    (0xD9, #"FNSTENV", [APass]);
    (0xD9, #"FSTENV", [APass]);
    (0xD9, #"F2XM1", []);
    (0xD9, #"FYL2X", []);
    (0xD9, #"FPTAN", []);
    (0xD9, #"FPATAN", []);
    (0xD9, #"FXTRACT", []);
    (0xD9, #"FPREM1", []);
    (0xD9, #"FDECSTP", []);
    (0xD9, #"FINCSTP", []);
    (0xD9, #"FNSTCW", [APass]);
    (0xD9, #"FSTCW", [APass]);
    (0xD9, #"FPREM", []);
    (0xD9, #"FYL2XP1", []);
    (0xD9, #"FSQRT", []);
    (0xD9, #"FSINCOS", []);
    (0xD9, #"FRNDINT", []);
    (0xD9, #"FSCALE", []);
    (0xD9, #"FSIN", []);
    (0xD9, #"FCOS", []);
    (0xDA, #"FIADD", [APass]);
    (0xDA, #"FCMOVB", [APass; APass]);
    (0xDA, #"FIMUL", [APass]);
    (0xDA, #"FCMOVE", [APass; APass]);
    (0xDA, #"FICOM", []);
    (0xDA, #"FCMOVBE", [APass; APass]);
    (0xDA, #"FICOMP", []);
    (0xDA, #"FCMOVU", [APass; APass]);
    (0xDA, #"FISUB", [APass]);
    (0xDA, #"FISUBR", [APass]);
    (0xDA, #"FUCOMPP", []);
    (0xDA, #"FIDIV", [APass]);
    (0xDA, #"FIDIVR", [APass]);
    (0xDB, #"FILD", [APass]);
    (0xDB, #"FCMOVNB", [APass; APass]);
    (0xDB, #"FISTTP", [APass]);
    (0xDB, #"FCMOVNE", [APass; APass]);
    (0xDB, #"FIST", [APass]);
    (0xDB, #"FCMOVNBE", [APass; APass]);
    (0xDB, #"FISTP", [APass]);
    (0xDB, #"FCMOVNU", [APass; APass]);
    (0xDB, #"FNENI", []);
    (0xDB, #"FENI", []);
    (0xDB, #"FNENI", []);
    (0xDB, #"FNDISI", []);
    (0xDB, #"FDISI", []);
    (0xDB, #"FNDISI", []);
    (0xDB, #"FNCLEX", []);
    (0xDB, #"FCLEX", []);
    (0xDB, #"FNINIT", []);
    (0xDB, #"FINIT", []);
    (0xDB, #"FNSETPM", []);
    (0xDB, #"FSETPM", []);
    (0xDB, #"FNSETPM", []);
    (0xDB, #"FLD", [APass]);
    (0xDB, #"FUCOMI", [APass]);
    (0xDB, #"FCOMI", [APass]);
    (0xDB, #"FSTP", [APass]);
    (0xDC, #"FADD", [APass]);
    (0xDC, #"FADD", [APass; APass]);
    (0xDC, #"FMUL", [APass]);
    (0xDC, #"FMUL", [APass; APass]);
    (0xDC, #"FCOM", []);
    (0xDC, #"FCOM2", []);
    (0xDC, #"FCOM2", []);
    (0xDC, #"FCOMP", []);
    (0xDC, #"FCOMP3", []);
    (0xDC, #"FCOMP3", []);
    (0xDC, #"FSUB", [APass]);
    (0xDC, #"FSUBR", [APass; APass]);
    (0xDC, #"FSUBR", [APass]);
    (0xDC, #"FSUB", [APass; APass]);
    (0xDC, #"FDIV", [APass]);
    (0xDC, #"FDIVR", [APass; APass]);
    (0xDC, #"FDIVR", [APass]);
    (0xDC, #"FDIV", [APass; APass]);
    (0xDD, #"FLD", [APass]);
    (0xDD, #"FFREE", [APass]);
    (0xDD, #"FISTTP", [APass]);
    (0xDD, #"FXCH4", []);
    (0xDD, #"FXCH4", []);
    (0xDD, #"FST", [APass]);
    (0xDD, #"FST", [APass]);
    (0xDD, #"FSTP", [APass]);
    (0xDD, #"FSTP", [APass]);
    (0xDD, #"FRSTOR", [APass]);
    (0xDD, #"FUCOM", []);
    (0xDD, #"FUCOM", []);
    (0xDD, #"FUCOMP", []);
    (0xDD, #"FUCOMP", []);
    (0xDD, #"FNSAVE", [APass]);
    (0xDD, #"FSAVE", [APass]);
    (0xDD, #"FNSTSW", [APass]);
    (0xDD, #"FSTSW", [APass]);
    (0xDE, #"FIADD", [APass]);
    (0xDE, #"FADDP", [APass; APass]);
    (0xDE, #"FADDP", []);
    (0xDE, #"FIMUL", [APass]);
    (0xDE, #"FMULP", [APass; APass]);
    (0xDE, #"FMULP", []);
    (0xDE, #"FICOM", []);
    (0xDE, #"FCOMP5", []);
    (0xDE, #"FCOMP5", []);
    (0xDE, #"FICOMP", []);
    (0xDE, #"FCOMPP", []);
    (0xDE, #"FISUB", [APass]);
    (0xDE, #"FSUBRP", [APass; APass]);
    (0xDE, #"FSUBRP", []);
    (0xDE, #"FISUBR", [APass]);
    (0xDE, #"FSUBP", [APass; APass]);
    (0xDE, #"FSUBP", []);
    (0xDE, #"FIDIV", [APass]);
    (0xDE, #"FDIVRP", [APass; APass]);
    (0xDE, #"FDIVRP", []);
    (0xDE, #"FIDIVR", [APass]);
    (0xDE, #"FDIVP", [APass; APass]);
    (0xDE, #"FDIVP", []);
    (0xDF, #"FILD", [APass]);
    (0xDF, #"FFREEP", [APass]);
    (0xDF, #"FISTTP", [APass]);
    (0xDF, #"FXCH7", []);
    (0xDF, #"FXCH7", []);
    (0xDF, #"FIST", [APass]);
    (0xDF, #"FSTP8", [APass]);
    (0xDF, #"FSTP8", [APass]);
    (0xDF, #"FISTP", [APass]);
    (0xDF, #"FSTP9", [APass]);
    (0xDF, #"FSTP9", [APass]);
    (0xDF, #"FBLD", [APass]);
    (0xDF, #"FNSTSW", [APass]);
    (0xDF, #"FSTSW", [APass]);
    (0xDF, #"FILD", [APass]);
    (0xDF, #"FUCOMIP", [APass]);
    (0xDF, #"FBSTP", [APass]);
    (0xDF, #"FCOMIP", [APass]);
    (0xDF, #"FISTP", [APass]);
    (0xE0, #"LOOPNZ", [APass]);
    (0xE0, #"LOOPNE", [APass]);
    (0xE0, #"LOOPNZ", [APass]);
    (0xE0, #"LOOPNE", [APass]);
    (0xE1, #"LOOPZ", [APass]);
    (0xE1, #"LOOPE", [APass]);
    (0xE1, #"LOOPZ", [APass]);
    (0xE1, #"LOOPE", [APass]);
    (0xE2, #"LOOP", [APass]);
    (0xE2, #"LOOP", [APass]);
    (0xE3, #"JCXZ", [APass]);
    (0xE3, #"JECXZ", [APass]);
    (0xE3, #"JECXZ", [APass]);
    (0xE3, #"JRCXZ", [APass]);
    (0xE4, #"IN", [APass; APass]);
    (0xE5, #"IN", [APass; APass]);
    (0xE6, #"OUT", [APass; APass]);
    (0xE7, #"OUT", [APass; APass]);
    (0xE8, #"CALL", [AJvds]);
    (0xE9, #"JMP", [AJvds]);
    (0xEA, #"JMPF", [APass]);
    (0xEB, #"JMP", [APass]);
    (0xEC, #"IN", [APass; APass]);
    (0xED, #"IN", [APass; APass]);
    (0xEE, #"OUT", [APass; APass]);
    (0xEF, #"OUT", [APass; APass]);
    (0xF0, #"LOCK", []);
    (0xF1, #"INT1", []);
    (0xF1, #"ICEBP", []);
    (0xF2, #"REPNZ", []);
    (0xF2, #"REPNE", []);
    (0xF3, #"REPZ", []);
    (0xF3, #"REPE", []);
    (0xF3, #"REP", []);
    (0xF3, #"REPZ", []);
    (0xF3, #"REPE", []);
    (0xF3, #"REP", []);
    (0xF4, #"HLT", []);
    (0xF5, #"CMC", []);
    (0xF6, #"TEST", [APass]);
    (0xF6, #"TEST", [APass]);
    (0xF6, #"NOT", [APass]);
    (0xF6, #"NEG", [APass]);
    (0xF6, #"MUL", []);
    (0xF6, #"IMUL", []);
    (0xF6, #"DIV", []);
    (0xF6, #"IDIV", []);
    (0xF7, #"TEST", [AEvqp]);
    (0xF7, #"TEST", [AEvqp]);
    (0xF7, #"NOT", [AEvqp]);
    (0xF7, #"NEG", [AEvqp]);
    (0xF7, #"MUL", [AEvqp]);
    (0xF7, #"IMUL", [AEvqp]);
    (0xF7, #"DIV", [AEvqp]);
    (0xF7, #"IDIV", [AEvqp]);
    (0xF8, #"CLC", []);
    (0xF9, #"STC", []);
    (0xFA, #"CLI", []);
    (0xFB, #"STI", []);
    (0xFC, #"CLD", []);
    (0xFD, #"STD", []);
    (0xFE, #"INC", [APass]);
    (0xFE, #"DEC", [APass]);
    (0xFF, #"INC", [AEvqp]);
    (0xFF, #"DEC", [AEvqp]);
    (0xFF, #"CALL", [APass]);
    (0xFF, #"CALL", [APass]);
    (0xFF, #"CALLF", [APass]);
    (0xFF, #"JMP", [APass]);
    (0xFF, #"JMP", [APass]);
    (0xFF, #"JMPF", [APass]);
    (0xFF, #"PUSH", [APass]);
    (0xFF, #"PUSH", [APass]);
    (0xF00, #"SLDT", [APass]);
    (0xF00, #"SLDT", [APass]);
    (0xF00, #"STR", [APass]);
    (0xF00, #"STR", [APass]);
    (0xF00, #"LLDT", [APass]);
    (0xF00, #"LTR", [APass]);
    (0xF00, #"VERR", [APass]);
    (0xF00, #"VERW", [APass]);
    (0xF00, #"JMPE", []);
    (0xF01, #"SGDT", [AMs]);
    (0xF01, #"VMCALL", []);
    (0xF01, #"VMLAUNCH", []);
    (0xF01, #"VMRESUME", []);
    (0xF01, #"VMXOFF", []);
    (0xF01, #"SIDT", [AMs]);
    (0xF01, #"MONITOR", []);
    (0xF01, #"MWAIT", []);
    (0xF01, #"LGDT", [AMs]);
    (0xF01, #"XGETBV", []);
    (0xF01, #"XSETBV", []);
    (0xF01, #"LIDT", [AMs]);
    (0xF01, #"SMSW", [APass]);
    (0xF01, #"SMSW", [APass]);
    (0xF01, #"LMSW", [APass]);
    (0xF01, #"INVLPG", [AM]);
    (0xF01, #"SWAPGS", []);
    (0xF01, #"RDTSCP", []);
    (0xF02, #"LAR", [AGvqp; APass]);
    (0xF02, #"LAR", [AGvqp; APass]);
    (0xF03, #"LSL", [AGvqp; APass]);
    (0xF03, #"LSL", [AGvqp; APass]);
    (0xF05, #"LOADALL", []);
    (0xF05, #"SYSCALL", []);
    (0xF06, #"CLTS", []);
    (0xF07, #"LOADALL", []);
    (0xF07, #"SYSRET", []);
    (0xF08, #"INVD", []);
    (0xF09, #"WBINVD", []);
    (0xF0B, #"UD2", []);
    (0xF0D, #"NOP", [APass]);
    (0xF10, #"MOVUPS", [APass; APass]);
    (0xF10, #"MOVSS", [APass; APass]);
    (0xF10, #"MOVUPD", [APass; APass]);
    (0xF10, #"MOVSD", [APass; APass]);
    (0xF11, #"MOVUPS", [APass; APass]);
    (0xF11, #"MOVSS", [APass; APass]);
    (0xF11, #"MOVUPD", [APass; APass]);
    (0xF11, #"MOVSD", [APass; APass]);
    (0xF12, #"MOVHLPS", [APass; APass]);
    (0xF12, #"MOVLPS", [APass; APass]);
    (0xF12, #"MOVLPD", [APass; APass]);
    (0xF12, #"MOVDDUP", [APass; APass]);
    (0xF12, #"MOVSLDUP", [APass; APass]);
    (0xF13, #"MOVLPS", [APass; APass]);
    (0xF13, #"MOVLPD", [APass; APass]);
    (0xF14, #"UNPCKLPS", [APass; APass]);
    (0xF14, #"UNPCKLPD", [APass; APass]);
    (0xF15, #"UNPCKHPS", [APass; APass]);
    (0xF15, #"UNPCKHPD", [APass; APass]);
    (0xF16, #"MOVLHPS", [APass; APass]);
    (0xF16, #"MOVHPS", [APass; APass]);
    (0xF16, #"MOVHPD", [APass; APass]);
    (0xF16, #"MOVSHDUP", [APass; APass]);
    (0xF17, #"MOVHPS", [APass; APass]);
    (0xF17, #"MOVHPD", [APass; APass]);
    (0xF18, #"HINT_NOP", [APass]);
    (0xF18, #"PREFETCHNTA", [APass]);
    (0xF18, #"PREFETCHT0", [APass]);
    (0xF18, #"PREFETCHT1", [APass]);
    (0xF18, #"PREFETCHT2", [APass]);
    (0xF18, #"HINT_NOP", [APass]);
    (0xF18, #"HINT_NOP", [APass]);
    (0xF18, #"HINT_NOP", [APass]);
    (0xF18, #"HINT_NOP", [APass]);
    (0xF19, #"HINT_NOP", [APass]);
    (0xF1A, #"HINT_NOP", [APass]);
    (0xF1B, #"HINT_NOP", [APass]);
    (0xF1C, #"HINT_NOP", [APass]);
    (0xF1D, #"HINT_NOP", [APass]);
    (0xF1E, #"HINT_NOP", [APass]);
    (0xF1F, #"HINT_NOP", [APass]);
    (0xF1F, #"NOP", [APass]);
    (0xF1F, #"HINT_NOP", [APass]);
    (0xF1F, #"HINT_NOP", [APass]);
    (0xF1F, #"HINT_NOP", [APass]);
    (0xF1F, #"HINT_NOP", [APass]);
    (0xF1F, #"HINT_NOP", [APass]);
    (0xF1F, #"HINT_NOP", [APass]);
    (0xF1F, #"HINT_NOP", [APass]);
    (0xF20, #"MOV", [ARd; ACd]);
    (0xF20, #"MOV", [APass; ACd]);
    (0xF20, #"MOV", [APass; APass]);
    (0xF20, #"MOV", [APass; APass]);
    (0xF21, #"MOV", [ARd; APass]);
    (0xF21, #"MOV", [APass; APass]);
    (0xF21, #"MOV", [APass; APass]);
    (0xF21, #"MOV", [APass; APass]);
    (0xF22, #"MOV", [ACd; ARd]);
    (0xF22, #"MOV", [ACd; APass]);
    (0xF22, #"MOV", [APass; APass]);
    (0xF22, #"MOV", [APass; APass]);
    (0xF23, #"MOV", [APass; ARd]);
    (0xF23, #"MOV", [APass; APass]);
    (0xF23, #"MOV", [APass; APass]);
    (0xF23, #"MOV", [APass; APass]);
    (0xF24, #"MOV", [ARd; APass]);
    (0xF24, #"MOV", [APass; APass]);
    (0xF26, #"MOV", [APass; ARd]);
    (0xF26, #"MOV", [APass; APass]);
    (0xF28, #"MOVAPS", [APass; APass]);
    (0xF28, #"MOVAPD", [APass; APass]);
    (0xF29, #"MOVAPS", [APass; APass]);
    (0xF29, #"MOVAPD", [APass; APass]);
    (0xF2A, #"CVTPI2PS", [APass; APass]);
    (0xF2A, #"CVTSI2SS", [APass; APass]);
    (0xF2A, #"CVTPI2PD", [APass; APass]);
    (0xF2A, #"CVTSI2SD", [APass; APass]);
    (0xF2B, #"MOVNTPS", [APass; APass]);
    (0xF2B, #"MOVNTPD", [APass; APass]);
    (0xF2C, #"CVTTPS2PI", [APass; APass]);
    (0xF2C, #"CVTTSS2SI", [APass; APass]);
    (0xF2C, #"CVTTPD2PI", [APass; APass]);
    (0xF2C, #"CVTTSD2SI", [APass; APass]);
    (0xF2D, #"CVTPS2PI", [APass; APass]);
    (0xF2D, #"CVTSS2SI", [APass; APass]);
    (0xF2D, #"CVTPD2PI", [APass; APass]);
    (0xF2D, #"CVTSD2SI", [APass; APass]);
    (0xF2E, #"UCOMISS", [APass]);
    (0xF2E, #"UCOMISD", [APass]);
    (0xF2F, #"COMISS", [APass]);
    (0xF2F, #"COMISD", [APass]);
    (0xF30, #"WRMSR", []);
    (0xF31, #"RDTSC", []);
    (0xF32, #"RDMSR", []);
    (0xF33, #"RDPMC", []);
    (0xF34, #"SYSENTER", []);
    (0xF34, #"SYSENTER", []);
    (0xF35, #"SYSEXIT", []);
    (0xF37, #"GETSEC", []);
    (0xF38, #"PSHUFB", [APass; APass]);
    (0xF38, #"PSHUFB", [APass; APass]);
    (0xF38, #"PHADDW", [APass; APass]);
    (0xF38, #"PHADDW", [APass; APass]);
    (0xF38, #"PHADDD", [APass; APass]);
    (0xF38, #"PHADDD", [APass; APass]);
    (0xF38, #"PHADDSW", [APass; APass]);
    (0xF38, #"PHADDSW", [APass; APass]);
    (0xF38, #"PMADDUBSW", [APass; APass]);
    (0xF38, #"PMADDUBSW", [APass; APass]);
    (0xF38, #"PHSUBW", [APass; APass]);
    (0xF38, #"PHSUBW", [APass; APass]);
    (0xF38, #"PHSUBD", [APass; APass]);
    (0xF38, #"PHSUBD", [APass; APass]);
    (0xF38, #"PHSUBSW", [APass; APass]);
    (0xF38, #"PHSUBSW", [APass; APass]);
    (0xF38, #"PSIGNB", [APass; APass]);
    (0xF38, #"PSIGNB", [APass; APass]);
    (0xF38, #"PSIGNW", [APass; APass]);
    (0xF38, #"PSIGNW", [APass; APass]);
    (0xF38, #"PSIGND", [APass; APass]);
    (0xF38, #"PSIGND", [APass; APass]);
    (0xF38, #"PMULHRSW", [APass; APass]);
    (0xF38, #"PMULHRSW", [APass; APass]);
    (0xF38, #"PBLENDVB", [APass; APass]);
    (0xF38, #"BLENDVPS", [APass; APass]);
    (0xF38, #"BLENDVPD", [APass; APass]);
    (0xF38, #"PTEST", [APass]);
    (0xF38, #"PABSB", [APass; APass]);
    (0xF38, #"PABSB", [APass; APass]);
    (0xF38, #"PABSW", [APass; APass]);
    (0xF38, #"PABSW", [APass; APass]);
    (0xF38, #"PABSD", [APass; APass]);
    (0xF38, #"PABSD", [APass; APass]);
    (0xF38, #"PMOVSXBW", [APass; APass]);
    (0xF38, #"PMOVSXBW", [APass; APass]);
    (0xF38, #"PMOVSXBD", [APass; APass]);
    (0xF38, #"PMOVSXBD", [APass; APass]);
    (0xF38, #"PMOVSXBQ", [APass; APass]);
    (0xF38, #"PMOVSXBQ", [APass; APass]);
    (0xF38, #"PMOVSXWD", [APass; APass]);
    (0xF38, #"PMOVSXWD", [APass; APass]);
    (0xF38, #"PMOVSXWQ", [APass; APass]);
    (0xF38, #"PMOVSXWQ", [APass; APass]);
    (0xF38, #"PMOVSXDQ", [APass; APass]);
    (0xF38, #"PMOVSXDQ", [APass; APass]);
    (0xF38, #"PMULDQ", [APass; APass]);
    (0xF38, #"PCMPEQQ", [APass; APass]);
    (0xF38, #"MOVNTDQA", [APass; APass]);
    (0xF38, #"PACKUSDW", [APass; APass]);
    (0xF38, #"PMOVZXBW", [APass; APass]);
    (0xF38, #"PMOVZXBW", [APass; APass]);
    (0xF38, #"PMOVZXBD", [APass; APass]);
    (0xF38, #"PMOVZXBD", [APass; APass]);
    (0xF38, #"PMOVZXBQ", [APass; APass]);
    (0xF38, #"PMOVZXBQ", [APass; APass]);
    (0xF38, #"PMOVZXWD", [APass; APass]);
    (0xF38, #"PMOVZXWD", [APass; APass]);
    (0xF38, #"PMOVZXWQ", [APass; APass]);
    (0xF38, #"PMOVZXWQ", [APass; APass]);
    (0xF38, #"PMOVZXDQ", [APass; APass]);
    (0xF38, #"PMOVZXDQ", [APass; APass]);
    (0xF38, #"PCMPGTQ", [APass; APass]);
    (0xF38, #"PMINSB", [APass; APass]);
    (0xF38, #"PMINSD", [APass; APass]);
    (0xF38, #"PMINUW", [APass; APass]);
    (0xF38, #"PMINUD", [APass; APass]);
    (0xF38, #"PMAXSB", [APass; APass]);
    (0xF38, #"PMAXSD", [APass; APass]);
    (0xF38, #"PMAXUW", [APass; APass]);
    (0xF38, #"PMAXUD", [APass; APass]);
    (0xF38, #"PMULLD", [APass; APass]);
    (0xF38, #"PHMINPOSUW", [APass; APass]);
    (0xF38, #"INVEPT", [APass]);
    (0xF38, #"INVEPT", [APass]);
    (0xF38, #"INVVPID", [APass]);
    (0xF38, #"INVVPID", [APass]);
    (0xF38, #"MOVBE", [AGvqp; APass]);
    (0xF38, #"CRC32", [APass; APass]);
    (0xF38, #"MOVBE", [APass; AGvqp]);
    (0xF38, #"CRC32", [APass; AEvqp]);
    (0xF3A, #"ROUNDPS", [APass; APass]);
    (0xF3A, #"ROUNDPD", [APass; APass]);
    (0xF3A, #"ROUNDSS", [APass; APass]);
    (0xF3A, #"ROUNDSD", [APass; APass]);
    (0xF3A, #"BLENDPS", [APass; APass]);
    (0xF3A, #"BLENDPD", [APass; APass]);
    (0xF3A, #"PBLENDW", [APass; APass]);
    (0xF3A, #"PALIGNR", [APass; APass]);
    (0xF3A, #"PALIGNR", [APass; APass]);
    (0xF3A, #"PEXTRB", [APass; APass]);
    (0xF3A, #"PEXTRB", [APass; APass]);
    (0xF3A, #"PEXTRW", [APass; APass]);
    (0xF3A, #"PEXTRW", [APass; APass]);
    (0xF3A, #"PEXTRD", [APass; APass]);
    (0xF3A, #"PEXTRQ", [APass; APass]);
    (0xF3A, #"EXTRACTPS", [APass; APass]);
    (0xF3A, #"PINSRB", [APass; APass]);
    (0xF3A, #"PINSRB", [APass; APass]);
    (0xF3A, #"INSERTPS", [APass; APass]);
    (0xF3A, #"INSERTPS", [APass; APass]);
    (0xF3A, #"PINSRD", [APass; APass]);
    (0xF3A, #"PINSRQ", [APass; APass]);
    (0xF3A, #"DPPS", [APass; APass]);
    (0xF3A, #"DPPD", [APass; APass]);
    (0xF3A, #"MPSADBW", [APass; APass]);
    (0xF3A, #"PCMPESTRM", [APass]);
    (0xF3A, #"PCMPESTRI", [APass]);
    (0xF3A, #"PCMPISTRM", [APass]);
    (0xF3A, #"PCMPISTRI", [APass]);
    (0xF40, #"CMOVO", [AGvqp; AEvqp]);
    (0xF41, #"CMOVNO", [AGvqp; AEvqp]);
    (0xF42, #"CMOVB", [AGvqp; AEvqp]);
    (0xF42, #"CMOVNAE", [AGvqp; AEvqp]);
    (0xF42, #"CMOVC", [AGvqp; AEvqp]);
    (0xF43, #"CMOVNB", [AGvqp; AEvqp]);
    (0xF43, #"CMOVAE", [AGvqp; AEvqp]);
    (0xF43, #"CMOVNC", [AGvqp; AEvqp]);
    (0xF44, #"CMOVZ", [AGvqp; AEvqp]);
    (0xF44, #"CMOVE", [AGvqp; AEvqp]);
    (0xF45, #"CMOVNZ", [AGvqp; AEvqp]);
    (0xF45, #"CMOVNE", [AGvqp; AEvqp]);
    (0xF46, #"CMOVBE", [AGvqp; AEvqp]);
    (0xF46, #"CMOVNA", [AGvqp; AEvqp]);
    (0xF47, #"CMOVNBE", [AGvqp; AEvqp]);
    (0xF47, #"CMOVA", [AGvqp; AEvqp]);
    (0xF48, #"CMOVS", [AGvqp; AEvqp]);
    (0xF49, #"CMOVNS", [AGvqp; AEvqp]);
    (0xF4A, #"CMOVP", [AGvqp; AEvqp]);
    (0xF4A, #"CMOVPE", [AGvqp; AEvqp]);
    (0xF4B, #"CMOVNP", [AGvqp; AEvqp]);
    (0xF4B, #"CMOVPO", [AGvqp; AEvqp]);
    (0xF4C, #"CMOVL", [AGvqp; AEvqp]);
    (0xF4C, #"CMOVNGE", [AGvqp; AEvqp]);
    (0xF4D, #"CMOVNL", [AGvqp; AEvqp]);
    (0xF4D, #"CMOVGE", [AGvqp; AEvqp]);
    (0xF4E, #"CMOVLE", [AGvqp; AEvqp]);
    (0xF4E, #"CMOVNG", [AGvqp; AEvqp]);
    (0xF4F, #"CMOVNLE", [AGvqp; AEvqp]);
    (0xF4F, #"CMOVG", [AGvqp; AEvqp]);
    (0xF50, #"MOVMSKPS", [APass; APass]);
    (0xF50, #"MOVMSKPD", [APass; APass]);
    (0xF51, #"SQRTPS", [APass; APass]);
    (0xF51, #"SQRTSS", [APass; APass]);
    (0xF51, #"SQRTPD", [APass; APass]);
    (0xF51, #"SQRTSD", [APass; APass]);
    (0xF52, #"RSQRTPS", [APass; APass]);
    (0xF52, #"RSQRTSS", [APass; APass]);
    (0xF53, #"RCPPS", [APass; APass]);
    (0xF53, #"RCPSS", [APass; APass]);
    (0xF54, #"ANDPS", [APass; APass]);
    (0xF54, #"ANDPD", [APass; APass]);
    (0xF55, #"ANDNPS", [APass; APass]);
    (0xF55, #"ANDNPD", [APass; APass]);
    (0xF56, #"ORPS", [APass; APass]);
    (0xF56, #"ORPD", [APass; APass]);
    (0xF57, #"XORPS", [APass; APass]);
    (0xF57, #"XORPD", [APass; APass]);
    (0xF58, #"ADDPS", [APass; APass]);
    (0xF58, #"ADDSS", [APass; APass]);
    (0xF58, #"ADDPD", [APass; APass]);
    (0xF58, #"ADDSD", [APass; APass]);
    (0xF59, #"MULPS", [APass; APass]);
    (0xF59, #"MULSS", [APass; APass]);
    (0xF59, #"MULPD", [APass; APass]);
    (0xF59, #"MULSD", [APass; APass]);
    (0xF5A, #"CVTPS2PD", [APass; APass]);
    (0xF5A, #"CVTPD2PS", [APass; APass]);
    (0xF5A, #"CVTSS2SD", [APass; APass]);
    (0xF5A, #"CVTSD2SS", [APass; APass]);
    (0xF5B, #"CVTDQ2PS", [APass; APass]);
    (0xF5B, #"CVTPS2DQ", [APass; APass]);
    (0xF5B, #"CVTTPS2DQ", [APass; APass]);
    (0xF5C, #"SUBPS", [APass; APass]);
    (0xF5C, #"SUBSS", [APass; APass]);
    (0xF5C, #"SUBPD", [APass; APass]);
    (0xF5C, #"SUBSD", [APass; APass]);
    (0xF5D, #"MINPS", [APass; APass]);
    (0xF5D, #"MINSS", [APass; APass]);
    (0xF5D, #"MINPD", [APass; APass]);
    (0xF5D, #"MINSD", [APass; APass]);
    (0xF5E, #"DIVPS", [APass; APass]);
    (0xF5E, #"DIVSS", [APass; APass]);
    (0xF5E, #"DIVPD", [APass; APass]);
    (0xF5E, #"DIVSD", [APass; APass]);
    (0xF5F, #"MAXPS", [APass; APass]);
    (0xF5F, #"MAXSS", [APass; APass]);
    (0xF5F, #"MAXPD", [APass; APass]);
    (0xF5F, #"MAXSD", [APass; APass]);
    (0xF60, #"PUNPCKLBW", [APass; APass]);
    (0xF60, #"PUNPCKLBW", [APass; APass]);
    (0xF61, #"PUNPCKLWD", [APass; APass]);
    (0xF61, #"PUNPCKLWD", [APass; APass]);
    (0xF62, #"PUNPCKLDQ", [APass; APass]);
    (0xF62, #"PUNPCKLDQ", [APass; APass]);
    (0xF63, #"PACKSSWB", [APass; APass]);
    (0xF63, #"PACKSSWB", [APass; APass]);
    (0xF64, #"PCMPGTB", [APass; APass]);
    (0xF64, #"PCMPGTB", [APass; APass]);
    (0xF65, #"PCMPGTW", [APass; APass]);
    (0xF65, #"PCMPGTW", [APass; APass]);
    (0xF66, #"PCMPGTD", [APass; APass]);
    (0xF66, #"PCMPGTD", [APass; APass]);
    (0xF67, #"PACKUSWB", [APass; APass]);
    (0xF67, #"PACKUSWB", [APass; APass]);
    (0xF68, #"PUNPCKHBW", [APass; APass]);
    (0xF68, #"PUNPCKHBW", [APass; APass]);
    (0xF69, #"PUNPCKHWD", [APass; APass]);
    (0xF69, #"PUNPCKHWD", [APass; APass]);
    (0xF6A, #"PUNPCKHDQ", [APass; APass]);
    (0xF6A, #"PUNPCKHDQ", [APass; APass]);
    (0xF6B, #"PACKSSDW", [APass; APass]);
    (0xF6B, #"PACKSSDW", [APass; APass]);
    (0xF6C, #"PUNPCKLQDQ", [APass; APass]);
    (0xF6D, #"PUNPCKHQDQ", [APass; APass]);
    (0xF6E, #"MOVD", [APass; APass]);
    (0xF6E, #"MOVD", [APass; APass]);
    (0xF6E, #"MOVQ", [APass; APass]);
    (0xF6E, #"MOVD", [APass; APass]);
    (0xF6E, #"MOVD", [APass; APass]);
    (0xF6E, #"MOVQ", [APass; APass]);
    (0xF6F, #"MOVQ", [APass; APass]);
    (0xF6F, #"MOVDQA", [APass; APass]);
    (0xF6F, #"MOVDQU", [APass; APass]);
    (0xF70, #"PSHUFW", [APass; APass]);
    (0xF70, #"PSHUFLW", [APass; APass]);
    (0xF70, #"PSHUFHW", [APass; APass]);
    (0xF70, #"PSHUFD", [APass; APass]);
    (0xF71, #"PSRLW", [APass; APass]);
    (0xF71, #"PSRLW", [APass; APass]);
    (0xF71, #"PSRAW", [APass; APass]);
    (0xF71, #"PSRAW", [APass; APass]);
    (0xF71, #"PSLLW", [APass; APass]);
    (0xF71, #"PSLLW", [APass; APass]);
    (0xF72, #"PSRLD", [APass; APass]);
    (0xF72, #"PSRLD", [APass; APass]);
    (0xF72, #"PSRAD", [APass; APass]);
    (0xF72, #"PSRAD", [APass; APass]);
    (0xF72, #"PSLLD", [APass; APass]);
    (0xF72, #"PSLLD", [APass; APass]);
    (0xF73, #"PSRLQ", [APass; APass]);
    (0xF73, #"PSRLQ", [APass; APass]);
    (0xF73, #"PSRLDQ", [APass; APass]);
    (0xF73, #"PSLLQ", [APass; APass]);
    (0xF73, #"PSLLQ", [APass; APass]);
    (0xF73, #"PSLLDQ", [APass; APass]);
    (0xF74, #"PCMPEQB", [APass; APass]);
    (0xF74, #"PCMPEQB", [APass; APass]);
    (0xF75, #"PCMPEQW", [APass; APass]);
    (0xF75, #"PCMPEQW", [APass; APass]);
    (0xF76, #"PCMPEQD", [APass; APass]);
    (0xF76, #"PCMPEQD", [APass; APass]);
    (0xF77, #"EMMS", []);
    (0xF78, #"VMREAD", [APass; APass]);
    (0xF78, #"VMREAD", [APass; APass]);
    (0xF79, #"VMWRITE", [APass]);
    (0xF79, #"VMWRITE", [APass]);
    (0xF7C, #"HADDPD", [APass; APass]);
    (0xF7C, #"HADDPS", [APass; APass]);
    (0xF7D, #"HSUBPD", [APass; APass]);
    (0xF7D, #"HSUBPS", [APass; APass]);
    (0xF7E, #"MOVD", [APass; APass]);
    (0xF7E, #"MOVD", [APass; APass]);
    (0xF7E, #"MOVQ", [APass; APass]);
    (0xF7E, #"MOVD", [APass; APass]);
    (0xF7E, #"MOVD", [APass; APass]);
    (0xF7E, #"MOVQ", [APass; APass]);
    (0xF7E, #"MOVQ", [APass; APass]);
    (0xF7F, #"MOVQ", [APass; APass]);
    (0xF7F, #"MOVDQA", [APass; APass]);
    (0xF7F, #"MOVDQU", [APass; APass]);
    (0xF80, #"JO", [AJvds]);
    (0xF81, #"JNO", [AJvds]);
    (0xF82, #"JB", [AJvds]);
    (0xF82, #"JNAE", [AJvds]);
    (0xF82, #"JC", [AJvds]);
    (0xF83, #"JNB", [AJvds]);
    (0xF83, #"JAE", [AJvds]);
    (0xF83, #"JNC", [AJvds]);
    (0xF84, #"JZ", [AJvds]);
    (0xF84, #"JE", [AJvds]);
    (0xF85, #"JNZ", [AJvds]);
    (0xF85, #"JNE", [AJvds]);
    (0xF86, #"JBE", [AJvds]);
    (0xF86, #"JNA", [AJvds]);
    (0xF87, #"JNBE", [AJvds]);
    (0xF87, #"JA", [AJvds]);
    (0xF88, #"JS", [AJvds]);
    (0xF89, #"JNS", [AJvds]);
    (0xF8A, #"JP", [AJvds]);
    (0xF8A, #"JPE", [AJvds]);
    (0xF8B, #"JNP", [AJvds]);
    (0xF8B, #"JPO", [AJvds]);
    (0xF8C, #"JL", [AJvds]);
    (0xF8C, #"JNGE", [AJvds]);
    (0xF8D, #"JNL", [AJvds]);
    (0xF8D, #"JGE", [AJvds]);
    (0xF8E, #"JLE", [AJvds]);
    (0xF8E, #"JNG", [AJvds]);
    (0xF8F, #"JNLE", [AJvds]);
    (0xF8F, #"JG", [AJvds]);
    (0xF90, #"SETO", [APass]);
    (0xF91, #"SETNO", [APass]);
    (0xF92, #"SETB", [APass]);
    (0xF92, #"SETNAE", [APass]);
    (0xF92, #"SETC", [APass]);
    (0xF93, #"SETNB", [APass]);
    (0xF93, #"SETAE", [APass]);
    (0xF93, #"SETNC", [APass]);
    (0xF94, #"SETZ", [APass]);
    (0xF94, #"SETE", [APass]);
    (0xF95, #"SETNZ", [APass]);
    (0xF95, #"SETNE", [APass]);
    (0xF96, #"SETBE", [APass]);
    (0xF96, #"SETNA", [APass]);
    (0xF97, #"SETNBE", [APass]);
    (0xF97, #"SETA", [APass]);
    (0xF98, #"SETS", [APass]);
    (0xF99, #"SETNS", [APass]);
    (0xF9A, #"SETP", [APass]);
    (0xF9A, #"SETPE", [APass]);
    (0xF9B, #"SETNP", [APass]);
    (0xF9B, #"SETPO", [APass]);
    (0xF9C, #"SETL", [APass]);
    (0xF9C, #"SETNGE", [APass]);
    (0xF9D, #"SETNL", [APass]);
    (0xF9D, #"SETGE", [APass]);
    (0xF9E, #"SETLE", [APass]);
    (0xF9E, #"SETNG", [APass]);
    (0xF9F, #"SETNLE", [APass]);
    (0xF9F, #"SETG", [APass]);
    (0xFA2, #"CPUID", []);
    (0xFA3, #"BT", [AEvqp]);
    (0xFA4, #"SHLD", [AEvqp; AGvqp]);
    (0xFA5, #"SHLD", [AEvqp; AGvqp]);
    (0xFAA, #"RSM", []);
    (0xFAB, #"BTS", [AEvqp; AGvqp]);
    (0xFAC, #"SHRD", [AEvqp; AGvqp]);
    (0xFAD, #"SHRD", [AEvqp; AGvqp]);
    (0xFAE, #"FXSAVE", [APass]);
    (0xFAE, #"FXSAVE", [APass]);
    (0xFAE, #"FXRSTOR", [APass]);
    (0xFAE, #"FXRSTOR", [APass]);
    (0xFAE, #"LDMXCSR", [APass]);
    (0xFAE, #"STMXCSR", [APass]);
    (0xFAE, #"XSAVE", [AM]);
    (0xFAE, #"XSAVE", [AM]);
    (0xFAE, #"LFENCE", []);
    (0xFAE, #"XRSTOR", [AM]);
    (0xFAE, #"XRSTOR", [AM]);
    (0xFAE, #"MFENCE", []);
    (0xFAE, #"SFENCE", []);
    (0xFAE, #"CLFLUSH", [APass]);
    (0xFAF, #"IMUL", [AGvqp; AEvqp]);
    (0xFB0, #"CMPXCHG", [APass; APass]);
    (0xFB1, #"CMPXCHG", [AEvqp; AGvqp]);
    (0xFB3, #"BTR", [AEvqp; AGvqp]);
    (0xFB6, #"MOVZX", [AGvqp; APass]);
    (0xFB7, #"MOVZX", [AGvqp; APass]);
    (0xFB8, #"JMPE", []);
    (0xFB8, #"POPCNT", [AGvqp; AEvqp]);
    (0xFB9, #"UD", [APass]);
    (0xFBA, #"BT", [AEvqp]);
    (0xFBA, #"BTS", [AEvqp; APass]);
    (0xFBA, #"BTR", [AEvqp; APass]);
    (0xFBA, #"BTC", [AEvqp; APass]);
    (0xFBB, #"BTC", [AEvqp; AGvqp]);
    (0xFBC, #"BSF", [AGvqp; AEvqp]);
    (0xFBD, #"BSR", [AGvqp; AEvqp]);
    (0xFBE, #"MOVSX", [AGvqp; APass]);
    (0xFBF, #"MOVSX", [AGvqp; APass]);
    (0xFC0, #"XADD", [APass]);
    (0xFC1, #"XADD", [AEvqp]);
    (0xFC2, #"CMPPS", [APass; APass]);
    (0xFC2, #"CMPSS", [APass; APass]);
    (0xFC2, #"CMPPD", [APass; APass]);
    (0xFC2, #"CMPSD", [APass; APass]);
    (0xFC3, #"MOVNTI", [APass; APass]);
    (0xFC4, #"PINSRW", [APass; APass]);
    (0xFC4, #"PINSRW", [APass; APass]);
    (0xFC4, #"PINSRW", [APass; APass]);
    (0xFC4, #"PINSRW", [APass; APass]);
    (0xFC5, #"PEXTRW", [APass; APass]);
    (0xFC5, #"PEXTRW", [APass; APass]);
    (0xFC6, #"SHUFPS", [APass; APass]);
    (0xFC6, #"SHUFPD", [APass; APass]);
    (0xFC7, #"CMPXCHG8B", [APass]);
    (0xFC7, #"CMPXCHG8B", [APass]);
    (0xFC7, #"CMPXCHG16B", [APass]);
    (0xFC7, #"VMPTRLD", [APass]);
    (0xFC7, #"VMCLEAR", [APass]);
    (0xFC7, #"VMXON", [APass]);
    (0xFC7, #"VMPTRST", [APass]);
    (0xFC8, #"BSWAP", [AZvqp]);
    (0xFD0, #"ADDSUBPD", [APass; APass]);
    (0xFD0, #"ADDSUBPS", [APass; APass]);
    (0xFD1, #"PSRLW", [APass; APass]);
    (0xFD1, #"PSRLW", [APass; APass]);
    (0xFD2, #"PSRLD", [APass; APass]);
    (0xFD2, #"PSRLD", [APass; APass]);
    (0xFD3, #"PSRLQ", [APass; APass]);
    (0xFD3, #"PSRLQ", [APass; APass]);
    (0xFD4, #"PADDQ", [APass; APass]);
    (0xFD4, #"PADDQ", [APass; APass]);
    (0xFD5, #"PMULLW", [APass; APass]);
    (0xFD5, #"PMULLW", [APass; APass]);
    (0xFD6, #"MOVQ", [APass; APass]);
    (0xFD6, #"MOVQ2DQ", [APass; APass]);
    (0xFD6, #"MOVDQ2Q", [APass; APass]);
    (0xFD7, #"PMOVMSKB", [APass; APass]);
    (0xFD7, #"PMOVMSKB", [APass; APass]);
    (0xFD8, #"PSUBUSB", [APass; APass]);
    (0xFD8, #"PSUBUSB", [APass; APass]);
    (0xFD9, #"PSUBUSW", [APass; APass]);
    (0xFD9, #"PSUBUSW", [APass; APass]);
    (0xFDA, #"PMINUB", [APass; APass]);
    (0xFDA, #"PMINUB", [APass; APass]);
    (0xFDB, #"PAND", [APass; APass]);
    (0xFDB, #"PAND", [APass; APass]);
    (0xFDC, #"PADDUSB", [APass; APass]);
    (0xFDC, #"PADDUSB", [APass; APass]);
    (0xFDD, #"PADDUSW", [APass; APass]);
    (0xFDD, #"PADDUSW", [APass; APass]);
    (0xFDE, #"PMAXUB", [APass; APass]);
    (0xFDE, #"PMAXUB", [APass; APass]);
    (0xFDF, #"PANDN", [APass; APass]);
    (0xFDF, #"PANDN", [APass; APass]);
    (0xFE0, #"PAVGB", [APass; APass]);
    (0xFE0, #"PAVGB", [APass; APass]);
    (0xFE1, #"PSRAW", [APass; APass]);
    (0xFE1, #"PSRAW", [APass; APass]);
    (0xFE2, #"PSRAD", [APass; APass]);
    (0xFE2, #"PSRAD", [APass; APass]);
    (0xFE3, #"PAVGW", [APass; APass]);
    (0xFE3, #"PAVGW", [APass; APass]);
    (0xFE4, #"PMULHUW", [APass; APass]);
    (0xFE4, #"PMULHUW", [APass; APass]);
    (0xFE5, #"PMULHW", [APass; APass]);
    (0xFE5, #"PMULHW", [APass; APass]);
    (0xFE6, #"CVTPD2DQ", [APass; APass]);
    (0xFE6, #"CVTTPD2DQ", [APass; APass]);
    (0xFE6, #"CVTDQ2PD", [APass; APass]);
    (0xFE7, #"MOVNTQ", [APass; APass]);
    (0xFE7, #"MOVNTDQ", [APass; APass]);
    (0xFE8, #"PSUBSB", [APass; APass]);
    (0xFE8, #"PSUBSB", [APass; APass]);
    (0xFE9, #"PSUBSW", [APass; APass]);
    (0xFE9, #"PSUBSW", [APass; APass]);
    (0xFEA, #"PMINSW", [APass; APass]);
    (0xFEA, #"PMINSW", [APass; APass]);
    (0xFEB, #"POR", [APass; APass]);
    (0xFEB, #"POR", [APass; APass]);
    (0xFEC, #"PADDSB", [APass; APass]);
    (0xFEC, #"PADDSB", [APass; APass]);
    (0xFED, #"PADDSW", [APass; APass]);
    (0xFED, #"PADDSW", [APass; APass]);
    (0xFEE, #"PMAXSW", [APass; APass]);
    (0xFEE, #"PMAXSW", [APass; APass]);
    (0xFEF, #"PXOR", [APass; APass]);
    (0xFEF, #"PXOR", [APass; APass]);
    (0xFF0, #"LDDQU", [APass; APass]);
    (0xFF1, #"PSLLW", [APass; APass]);
    (0xFF1, #"PSLLW", [APass; APass]);
    (0xFF2, #"PSLLD", [APass; APass]);
    (0xFF2, #"PSLLD", [APass; APass]);
    (0xFF3, #"PSLLQ", [APass; APass]);
    (0xFF3, #"PSLLQ", [APass; APass]);
    (0xFF4, #"PMULUDQ", [APass; APass]);
    (0xFF4, #"PMULUDQ", [APass; APass]);
    (0xFF5, #"PMADDWD", [APass; APass]);
    (0xFF5, #"PMADDWD", [APass; APass]);
    (0xFF6, #"PSADBW", [APass; APass]);
    (0xFF6, #"PSADBW", [APass; APass]);
    (0xFF7, #"MASKMOVQ", [APass]);
    (0xFF7, #"MASKMOVDQU", [APass]);
    (0xFF8, #"PSUBB", [APass; APass]);
    (0xFF8, #"PSUBB", [APass; APass]);
    (0xFF9, #"PSUBW", [APass; APass]);
    (0xFF9, #"PSUBW", [APass; APass]);
    (0xFFA, #"PSUBD", [APass; APass]);
    (0xFFA, #"PSUBD", [APass; APass]);
    (0xFFB, #"PSUBQ", [APass; APass]);
    (0xFFB, #"PSUBQ", [APass; APass]);
    (0xFFC, #"PADDB", [APass; APass]);
    (0xFFC, #"PADDB", [APass; APass]);
    (0xFFD, #"PADDW", [APass; APass]);
    (0xFFD, #"PADDW", [APass; APass]);
    (0xFFE, #"PADDD", [APass; APass]);
    (0xFFE, #"PADDD", [APass; APass])
  ].

(** cpu/x86.py:1925 OPCODES_IMPLICIT_32 *)
Definition x_implicit32 : list str := [#"STOSD"; #"LODSD"].

(** cpu/x86.py:1961-1970: the operands of one condition; None if one of them does not match *)
Fixpoint x_run_args (args : list arg) (tokens : list str) (base : bytes) (index : nat) (m : xrm) (blob : bytes) : M (option (bytes * bytes)) :=
  match args with
  | [] => ret (Some (base, blob))
  | a :: rest =>
      let! r := x_run_arg a tokens base index m in
      match r with
      | None => ret None
      | Some (delta, base, b, m) => x_run_args rest tokens base (index + delta) m (blob ++ b)
      end
  end.
(** cpu/x86.py:1957-1960 *)
Definition x_base (base : Z) : bytes := if base >? 0xFF then [Z.shiftr base 8; Z.land base 0xFF] else [base].
(** cpu/x86.py:1938-1972 __call__; [rep] is what line 1948 calls, the instruction after a prefix *)
Fixpoint x_conditions (rep : M (option bytes)) (tokens : list str) (conditions : list (Z * list arg)) : M (option bytes) :=
  match conditions with
  | [] => ret None
  | (base, []) :: _ =>
      let! t := tok_at tokens 0 in
      let! s := get in
      if str_in (upper t) x_implicit32 && (x86_bits s =? 16) then
        let! b := lift (pack_byte [Some 0x66; Some base]) in ret (Some b)
      else if starts_with #"REP" (upper t) then
        let! b := lift (pack_byte [Some base]) in
        let! r := rep in
        match r with Some x => ret (Some (b ++ x)) | None => praise TypeError end
      else if Nat.eqb (length tokens) 1 then let! b := lift (pack_byte [Some base]) in ret (Some b)
      else araise InvalidOpCodeArguments
  | (base, args) :: rest =>
      if Nat.ltb (length tokens) 2 then x_conditions rep tokens rest else
      let! r := x_run_args args tokens (x_base base) 1 (Xrm None None None None None) [] in
      match r with
      | None => x_conditions rep tokens rest
      | Some (base, blob) => let! b := lift (pack_byte (map Some base)) in ret (Some (b ++ blob))
      end
  end.

(** cpu/x86.py:1998-2006 register_instructions: the conditions of each name, in the order of
    the table *)
Fixpoint x86_add (name : str) (v : Z * list arg) (t : list (str * list (Z * list arg))) : list (str * list (Z * list arg)) :=
  match t with
  | [] => [(name, [v])]
  | (n, vs) :: rest => if str_eqb n name then (n, vs ++ [v]) :: rest else (n, vs) :: x86_add name v rest
  end.
(** cpu/x86.py:1998-2006 *)
Definition x86_opcodes : list (str * list (Z * list arg)) :=
  fold_left (fun t '(code, name, args) => x86_add (upper name) (code, args) t) x86_table [].
(** cpu/x86.py:1938-1972 __call__ *)
Fixpoint x86_call (conditions : list (Z * list arg)) (tokens : list str) : M (option bytes) :=
  x_conditions
    match tokens with
    | _ :: (t :: _) as rest =>
        match dget str_eqb x86_opcodes (upper t) with
        | Some cs => x86_call cs rest
        | None => praise KeyError
        end
    | _ => praise IndexError
    end tokens conditions.
(** cpu/x86.py:1998-2006: registered under their names *)
Definition x86_ops : list (str * opcode) := map (fun '(n, vs) => (n, OFun (x86_call vs))) x86_opcodes.
(** cpu/x86.py:1991-1996 directive_bits *)
Definition x86_directive_bits (tokens : list str) : M unit :=
  let! t := tok_at tokens 1 in
  let! v := m_parse_integer x86_p t 8 false in
  match v with
  | Some v => if (v =? 16) || (v =? 32) || (v =? 64) then modify (fun s => set_x86_bits s v)
              else araise InvalidArgumentsForDirective
  | None => araise InvalidArgumentsForDirective
  end.
(** cpu/x86.py:1975-2006 AssemblerX86 *)
Definition x86 (e : env) : cfg := mk_cfg x86_p e x86_ops [(#"bits", D_custom x86_directive_bits)] [] [].
