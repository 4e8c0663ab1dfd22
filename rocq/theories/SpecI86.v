(** The instructions of the Intel 8086: operands, how they are written, and the decoder of the
    manual. *)
From Verif Require Import Py Utils Tokenizer State Assembler SpecUtils SpecSubst SpecExec SpecLink SpecCpu.
Local Open Scope Z_scope.

(** ** Operands *)

(** A general register of 8 or 16 bits, a segment register, a place in memory by base and
    index with or without displacement, a place in memory by its address, a value, and a value
    that is part of the instruction. *)
Inductive opd (A : Type) :=
| R8 (n : Z) | R16 (n : Z) | SR (n : Z) | Mem (m : Z) (d : option A) | Dir (a : A) | Val (a : A) | Lit (n : Z).
Arguments R8 {A} n. Arguments R16 {A} n. Arguments SR {A} n. Arguments Mem {A} m d.
Arguments Dir {A} a. Arguments Val {A} a. Arguments Lit {A} n.

(** The registers in the order of their numbers. *)
Definition bytes_regs : list str := [#"AL"; #"CL"; #"DL"; #"BL"; #"AH"; #"CH"; #"DH"; #"BH"].
Definition words_regs : list str := [#"AX"; #"CX"; #"DX"; #"BX"; #"SP"; #"BP"; #"SI"; #"DI"].
Definition segs_regs : list str := [#"ES"; #"CS"; #"SS"; #"DS"].
(** The combinations of base and index, in the order of the r/m field. *)
Definition combos : list (list str) :=
  [ [#"BX"; #"+"; #"SI"]; [#"BX"; #"+"; #"DI"]; [#"BP"; #"+"; #"SI"]; [#"BP"; #"+"; #"DI"];
    [#"SI"]; [#"DI"]; [#"BP"]; [#"BX"] ].
Definition nth_of {X} (l : list X) (n : Z) (x : X) : Prop := 0 <= n /\ nth_error l (Z.to_nat n) = Some x.

(** A word that is neither a register nor a bracket. *)
Definition value_word (t : str) : Prop :=
  ~ In (upper t) (bytes_regs ++ words_regs ++ segs_regs) /\ t <> #"[" /\ t <> #"]".

(** The words of one operand. *)
Inductive written1 : opd str -> list str -> Prop :=
| w_r8 n t : nth_of bytes_regs n (upper t) -> written1 (R8 n) [t]
| w_r16 n t : nth_of words_regs n (upper t) -> written1 (R16 n) [t]
| w_sr n t : nth_of segs_regs n (upper t) -> written1 (SR n) [t]
| w_mem m ws : nth_of combos m (map upper ws) -> written1 (Mem m None) (#"[" :: ws ++ [#"]"])
| w_plus m ws d : nth_of combos m (map upper ws) -> value_word d -> hd_error d <> Some "+"%char ->
    written1 (Mem m (Some d)) (#"[" :: ws ++ [#"+"; d; #"]"])
| w_minus m ws d : nth_of combos m (map upper ws) -> value_word d ->
    written1 (Mem m (Some (#"-" ++ d))) (#"[" :: ws ++ [#"-"; d; #"]"])
| w_dir t : value_word t -> written1 (Dir t) [#"["; t; #"]"]
| w_val t : value_word t -> ~ In ":"%char t -> written1 (Val t) [t].
Inductive written : list (opd str) -> list str -> Prop :=
| w_nil : written [] []
| w_cons o os ws ops : written1 o ws -> written os ops -> written (o :: os) (ws ++ ops).

(** ** Machine code *)

(** The value at the end of an instruction: a byte, a word, an address of which the assembler
    only takes numbers below 256 (and names below 256, or any name), a displacement, the
    distance from the next instruction in a byte or in a word. *)
Inductive fld := Imm8 | Imm16 | Addr8 | AddrV | Disp16 | Jump8 | Jump16.

Definition alu : list str := [#"ADD"; #"OR"; #"ADC"; #"SBB"; #"AND"; #"SUB"; #"XOR"; #"CMP"].
Definition conditional : list str :=
  [#"JO"; #"JNO"; #"JB"; #"JNB"; #"JZ"; #"JNZ"; #"JBE"; #"JA"; #"JS"; #"JNS"; #"JPE"; #"JPO"; #"JL"; #"JGE"; #"JLE"; #"JG"].
Definition loops : list str := [#"LOOPNZ"; #"LOOPZ"; #"LOOP"; #"JCXZ"].
(** Instructions of one byte without operands. *)
Definition simple : list (Z * str) :=
  [ (0x27, #"DAA"); (0x2F, #"DAS"); (0x37, #"AAA"); (0x3F, #"AAS"); (0x90, #"NOP"); (0x98, #"CBW"); (0x99, #"CWD");
    (0x9B, #"WAIT"); (0x9C, #"PUSHF"); (0x9D, #"POPF"); (0x9E, #"SAHF"); (0x9F, #"LAHF"); (0xA4, #"MOVSB"); (0xA5, #"MOVSW");
    (0xA6, #"CMPSB"); (0xA7, #"CMPSW"); (0xAA, #"STOSB"); (0xAB, #"STOSW"); (0xAC, #"LODSB"); (0xAD, #"LODSW");
    (0xAE, #"SCASB"); (0xAF, #"SCASW"); (0xC3, #"RET"); (0xCB, #"RETF"); (0xCE, #"INTO"); (0xCF, #"IRET"); (0xD7, #"XLAT");
    (0xF0, #"LOCK"); (0xF2, #"REPNZ"); (0xF3, #"REPZ"); (0xF4, #"HLT"); (0xF5, #"CMC"); (0xF8, #"CLC"); (0xF9, #"STC");
    (0xFA, #"CLI"); (0xFB, #"STI"); (0xFC, #"CLD"); (0xFD, #"STD") ].

Section Decode.
  Context {A : Type}.
  Let instr : Type := str * list (opd A).
  Definition nth_name (l : list str) (n : Z) (ops : list (opd A)) : option instr :=
    match nth_error l (Z.to_nat n) with Some m => Some (m, ops) | None => None end.
  Definition AL : opd A := R8 0.
  Definition AX : opd A := R16 0.
  Definition DX : opd A := R16 2.

  (** One opcode byte and perhaps a value. *)
  Definition decode1 (op : Z) (v : option (fld * A)) : option instr :=
    match v with
    | None =>
        match dget Z.eqb simple op with
        | Some m => Some (m, [])
        | None =>
            if (op <? 0x20) && (op mod 8 =? 6) then Some (#"PUSH", [SR (op / 8)])
            else if (op <? 0x20) && (op mod 8 =? 7) && negb (op =? 0x0F) then Some (#"POP", [SR (op / 8)])
            else if op / 8 =? 8 then Some (#"INC", [R16 (op mod 8)])
            else if op / 8 =? 9 then Some (#"DEC", [R16 (op mod 8)])
            else if op / 8 =? 10 then Some (#"PUSH", [R16 (op mod 8)])
            else if op / 8 =? 11 then Some (#"POP", [R16 (op mod 8)])
            else if op / 8 =? 18 then Some (#"XCHG", [R16 (op mod 8); AX])
            else if op =? 0xCC then Some (#"INT", [Lit 3])
            else if op =? 0xEC then Some (#"IN", [AL; DX])
            else if op =? 0xED then Some (#"IN", [AX; DX])
            else if op =? 0xEE then Some (#"OUT", [DX; AL])
            else if op =? 0xEF then Some (#"OUT", [DX; AX])
            else None
        end
    | Some (Imm8, a) =>
        if (op <? 0x40) && (op mod 8 =? 4) then nth_name alu (op / 8) [AL; Val a]
        else if op =? 0xA8 then Some (#"TEST", [AL; Val a])
        else if op / 8 =? 22 then Some (#"MOV", [R8 (op mod 8); Val a])
        else if op =? 0xCD then Some (#"INT", [Val a])
        else if op =? 0xE4 then Some (#"IN", [AL; Val a])
        else if op =? 0xE5 then Some (#"IN", [AX; Val a])
        else if op =? 0xE6 then Some (#"OUT", [Val a; AL])
        else if op =? 0xE7 then Some (#"OUT", [Val a; AX])
        else None
    | Some (Disp16, _) => None
    | Some (Jump8, a) =>
        if op / 16 =? 7 then nth_name conditional (op mod 16) [Val a]
        else if op / 4 =? 56 then nth_name loops (op mod 4) [Val a]
        else if op =? 0xEB then Some (#"JMP", [Val a])
        else None
    | Some (Jump16, a) =>
        if op =? 0xE8 then Some (#"CALL", [Val a]) else if op =? 0xE9 then Some (#"JMP", [Val a]) else None
    | Some (f, a) => (* two bytes *)
        if op =? 0xA0 then Some (#"MOV", [AL; Dir a])
        else if op =? 0xA1 then Some (#"MOV", [AX; Dir a])
        else if op =? 0xA2 then Some (#"MOV", [Dir a; AL])
        else if op =? 0xA3 then Some (#"MOV", [Dir a; AX])
        else match f with
        | Imm16 =>
            if (op <? 0x40) && (op mod 8 =? 5) then nth_name alu (op / 8) [AX; Val a]
            else if op =? 0xA9 then Some (#"TEST", [AX; Val a])
            else if op / 8 =? 23 then Some (#"MOV", [R16 (op mod 8); Val a])
            else if op =? 0xC2 then Some (#"RET", [Val a])
            else if op =? 0xCA then Some (#"RETF", [Val a])
            else None
        | _ => None
        end
    end.

  (** The register or place in memory that the mod and r/m fields and the value stand for. *)
  Definition place (regs : Z -> opd A) (modrm : Z) (v : option (fld * A)) : option (opd A) :=
    let rm := modrm mod 8 in
    match modrm / 64, v with
    | 3, None => Some (regs rm)
    | 0, None => if rm =? 6 then None else Some (Mem rm None)
    | 0, Some (Imm16, a) => if rm =? 6 then Some (Dir a) else None
    | 2, Some (Disp16, a) => Some (Mem rm (Some a))
    | _, _ => None
    end.
  Definition in_memory (o : opd A) : bool := match o with Mem _ _ | Dir _ => true | _ => false end.
  Definition unary (m : str) (o : option (opd A)) (more : list (opd A)) : option instr :=
    match o with Some o => Some (m, o :: more) | None => None end.

  (** An opcode byte, a byte with mod, reg and r/m, and perhaps a value. *)
  Definition decode2 (op modrm : Z) (v : option (fld * A)) : option instr :=
    let reg := modrm / 8 mod 8 in
    let e8 := place R8 modrm v in let e16 := place R16 modrm v in
    let memory := match e16 with Some o => if in_memory o then Some o else None | None => None end in
    let dest := fun m o r => match o with Some x => Some (m, [x; r]) | None => None end in
    let src := fun m r o => match o with Some x => Some (m, [r; x]) | None => None end in
    if op <? 0x40 then
      match nth_error alu (Z.to_nat (op / 8)) with
      | Some m =>
          match op mod 8 with
          | 0 => dest m e8 (R8 reg) | 1 => dest m e16 (R16 reg) | 2 => src m (R8 reg) e8 | 3 => src m (R16 reg) e16
          | _ => None
          end
      | None => None
      end
    else if op =? 0x84 then src #"TEST" (R8 reg) e8
    else if op =? 0x85 then src #"TEST" (R16 reg) e16
    else if op =? 0x86 then src #"XCHG" (R8 reg) e8
    else if op =? 0x87 then src #"XCHG" (R16 reg) e16
    else if op =? 0x88 then dest #"MOV" e8 (R8 reg)
    else if op =? 0x89 then dest #"MOV" e16 (R16 reg)
    else if op =? 0x8A then src #"MOV" (R8 reg) e8
    else if op =? 0x8B then src #"MOV" (R16 reg) e16
    else if op =? 0x8C then if reg <? 4 then dest #"MOV" e16 (SR reg) else None
    else if op =? 0x8D then src #"LEA" (R16 reg) memory
    else if op =? 0x8E then if (reg <? 4) && negb (reg =? 1) then src #"MOV" (SR reg) e16 else None
    else if op =? 0x8F then if reg =? 0 then unary #"POP" e16 [] else None
    else if op =? 0xC4 then src #"LES" (R16 reg) memory
    else if op =? 0xC5 then src #"LDS" (R16 reg) memory
    else if op =? 0xD0 then
      if reg =? 4 then unary #"SHL" e8 [Lit 1] else if reg =? 5 then unary #"SHR" e8 [Lit 1] else None
    else if op =? 0xD1 then
      if reg =? 4 then unary #"SHL" e16 [Lit 1] else if reg =? 5 then unary #"SHR" e16 [Lit 1] else None
    else if op =? 0xF7 then
      if reg =? 4 then unary #"MUL" e16 [] else if reg =? 6 then unary #"DIV" e16 [] else None
    else None.

  (** The instruction that the processor sees in the given bytes followed by the given value.
      Left out: what the assembler has no way to write, and the instructions with an address
      and an immediate value. *)
  Definition decode (pre : bytes) (v : option (fld * A)) : option instr :=
    match pre with
    | [op] => decode1 op v
    | [op; modrm] =>
        match v with
        | None => if (op =? 0xD4) && (modrm =? 10) then Some (#"AAM", [])
                  else if (op =? 0xD5) && (modrm =? 10) then Some (#"AAD", [])
                  else decode2 op modrm v
        | Some _ => decode2 op modrm v
        end
    | _ => None
    end.
End Decode.

(** The operand as written and as decoded: the same, or the number that is part of the
    instruction. *)
Inductive alike : opd str -> opd str -> Prop :=
| al_same o : alike o o
| al_one : alike (Val #"1") (Lit 1)
| al_three : alike (Val #"3") (Lit 3).

(** ** The instructions offered *)

(** A register or place in memory of 8 or 16 bits, a register of 8 or 16 bits or a given one, a
    segment register (or one other than CS), a place in memory, an address, a value, the
    number one. *)
Inductive kind := E8 | E16 | G8 | G16 | AL' | AX' | DX' | Seg | Seg' | Mm | Da | Vl | One.
Definition takes (k : kind) (o : opd str) : Prop :=
  match k, o with
  | E8, R8 _ | E8, Mem _ _ | E16, R16 _ | E16, Mem _ _ | G8, R8 _ | G16, R16 _ | Seg, SR _ | Mm, Mem _ _ | Da, Dir _ | Vl, Val _ => True
  | AL', R8 n | AX', R16 n => n = 0
  | DX', R16 n => n = 2
  | Seg', SR n => n <> 1
  | One, Val t => t = #"1"
  | _, _ => False
  end.
Definition signatures : list (str * list kind) :=
  flat_map (fun m => map (pair m) [[E8; G8]; [E16; G16]; [G8; E8]; [G16; E16]; [AL'; Vl]; [AX'; Vl]]) alu ++
  map (pair #"MOV") [[E8; G8]; [E16; G16]; [G8; E8]; [G16; E16]; [E16; Seg]; [Seg'; E16]; [AL'; Da]; [AX'; Da]; [Da; AL']; [Da; AX']; [G8; Vl]; [G16; Vl]] ++
  map (pair #"TEST") [[G8; E8]; [G16; E16]; [AL'; Vl]; [AX'; Vl]] ++
  map (pair #"XCHG") [[G8; E8]; [G16; E16]] ++
  map (pair #"IN") [[AL'; Vl]; [AX'; Vl]; [AL'; DX']; [AX'; DX']] ++
  map (pair #"OUT") [[Vl; AL']; [Vl; AX']; [DX'; AL']; [DX'; AX']] ++
  map (pair #"SHL") [[E8; One]; [E16; One]] ++ map (pair #"SHR") [[E8; One]; [E16; One]] ++
  map (fun m => (m, [Vl])) (conditional ++ loops ++ [#"RET"; #"RETF"; #"INT"; #"CALL"; #"JMP"]) ++
  [(#"PUSH", [G16]); (#"PUSH", [Seg]); (#"POP", [G16]); (#"POP", [Seg']); (#"INC", [G16]); (#"DEC", [G16]);
   (#"MUL", [E16]); (#"DIV", [E16]); (#"LEA", [G16; Mm]); (#"LES", [G16; Da]); (#"LDS", [G16; Da])] ++
  map (fun '(_, m) => (m, [])) simple.
Definition offered (m : str) (os : list (opd str)) : Prop := exists ks, In (m, ks) signatures /\ Forall2 takes ks os.

(** Texts that are accepted though the assembler has no correct code for them: words after the
    operands; an immediate value stored in memory; POP of a place in memory; a move to CS; AAM
    and AAD; a shift without count; a jump to a place in memory. *)
Inductive deviating : str -> list (opd str) -> Prop :=
| dv_more m os o more : os <> [] -> offered m os \/ deviating m os -> deviating m (os ++ o :: more)
| dv_store m d t : deviating #"MOV" [Mem m d; Val t]
| dv_pop m d : deviating #"POP" [Mem m d]
| dv_cs o : deviating #"MOV" [SR 1; o]
| dv_adjust m os : In m [#"AAM"; #"AAD"] -> deviating m os
| dv_shift m o : In m [#"SHL"; #"SHR"] -> deviating m [o]
| dv_jump m o : In m (conditional ++ loops ++ [#"CALL"; #"JMP"]) -> in_memory o = true -> deviating m [o].

(** Instructions offered that are encoded wrongly: those with [BP], with a name as displacement,
    and LES and LDS with a name. *)
Inductive pitfall (p : pcfg) (s : st) : str -> list (opd str) -> Prop :=
| pf_bp m os : In (Mem 6 None) os -> pitfall p s m os
| pf_name m os r d : In (Mem r (Some d)) os -> not_num p s d 16 true -> pitfall p s m os
| pf_far m r t : In m [#"LES"; #"LDS"] -> not_num p s t 16 false -> pitfall p s m [r; Dir t].

(** ** Bytes and references *)

(** In state s the value t at byte off of the instruction is stored as the bytes b and the
    references ds. *)
Inductive stored86 (p : pcfg) (s : st) (off : Z) : fld -> str -> bytes -> list labeldata -> Prop :=
| s_imm8 t v : num p s t 8 false v -> stored86 p s off Imm8 t [v] []
| s_imm8_name t : not_num p s t 8 false -> stored86 p s off Imm8 t [0] [ref t 1 8 off 0]
| s_imm16 t v : num p s t 16 false v -> stored86 p s off Imm16 t [v mod 256; v / 256] []
| s_imm16_name t : not_num p s t 16 false -> stored86 p s off Imm16 t [0; 0] [ref t 2 16 off 0]
| s_addr8 t v : num p s t 8 false v -> stored86 p s off Addr8 t [v; 0] []
| s_addr8_name t : not_num p s t 8 false -> stored86 p s off Addr8 t [0; 0] [ref t 1 8 off 0]
| s_addrv t w v : num p s t 8 false w -> num p s t 16 false v -> stored86 p s off AddrV t [v mod 256; v / 256] []
| s_addrv_name t : not_num p s t 16 false -> stored86 p s off AddrV t [0; 0] [ref t 2 16 off 0]
| s_disp16 t v : num p s t 16 true v -> stored86 p s off Disp16 t [v mod 256; v / 256 mod 256] []
| s_jump8 t v : num p s t 8 true v -> stored86 p s off Jump8 t [v mod 256] []
| s_jump8_name t : not_num p s t 8 true -> stored86 p s off Jump8 t [0] [ref t 1 8 off (pc s + off + 1)]
| s_jump16 t v : num p s t 16 true v -> stored86 p s off Jump16 t [v mod 256; v / 256 mod 256] []
| s_jump16_name t : not_num p s t 16 true -> stored86 p s off Jump16 t [0; 0] [ref t 2 16 off (pc s + off + 2)].
Inductive laid86 (p : pcfg) (s : st) (pre : bytes) : option (fld * str) -> bytes -> list labeldata -> Prop :=
| ld_none : laid86 p s pre None pre []
| ld_some f t b ds : stored86 p s (zlen pre) f t b ds -> laid86 p s pre (Some (f, t)) (pre ++ b) ds.

(** The same in the linked image: names by their address in the final state s2 or by their
    distance from the next instruction. *)
Inductive settled86 (p : pcfg) (s s2 : st) (off : Z) : fld -> str -> bytes -> Prop :=
| e_number f t b : stored86 p s off f t b [] -> settled86 p s s2 off f t b
| e_imm8 t a : not_num p s t 8 false -> label_absolute p (labels s2) t = Ok (Some a) -> 0 <= a < 256 ->
    settled86 p s s2 off Imm8 t [a]
| e_imm16 t a : not_num p s t 16 false -> label_absolute p (labels s2) t = Ok (Some a) -> 0 <= a < 65536 ->
    settled86 p s s2 off Imm16 t [a mod 256; a / 256]
| e_addr8 t a : not_num p s t 8 false -> label_absolute p (labels s2) t = Ok (Some a) -> 0 <= a < 256 ->
    settled86 p s s2 off Addr8 t [a; 0]
| e_addrv t a : not_num p s t 16 false -> label_absolute p (labels s2) t = Ok (Some a) -> 0 <= a < 65536 ->
    settled86 p s s2 off AddrV t [a mod 256; a / 256]
| e_jump8 t v : not_num p s t 8 true -> label_relative p (labels s2) t (pc s + off + 1) = Ok (Some v) -> -128 <= v < 128 ->
    settled86 p s s2 off Jump8 t [v mod 256]
| e_jump16 t v : not_num p s t 16 true -> label_relative p (labels s2) t (pc s + off + 2) = Ok (Some v) -> -32768 <= v < 32768 ->
    settled86 p s s2 off Jump16 t [v mod 256; v / 256 mod 256].
Inductive final86 (p : pcfg) (s s2 : st) (pre : bytes) : option (fld * str) -> bytes -> Prop :=
| f_none : final86 p s s2 pre None pre
| f_some f t b : settled86 p s s2 (zlen pre) f t b -> final86 p s s2 pre (Some (f, t)) (pre ++ b).
