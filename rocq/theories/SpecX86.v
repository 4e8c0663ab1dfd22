(** Instructions of the x86 as the manual defines them, in 16-, 32- and 64-bit mode: operands,
    how they are written, and their machine code. *)
From Verif Require Import Py Utils Tokenizer State Assembler SpecUtils SpecSubst SpecExec SpecLink SpecCpu.
Local Open Scope Z_scope.

(** ** Operands *)

(** A general register by size and number, a control register, a place in memory by base and
    index with or without displacement, a value. *)
Inductive opd := Reg (size n : Z) | Ctl (n : Z) | Mem (m : Z) (d : option str) | Val (t : str).

(** The registers in the order of their numbers. *)
Definition bytes_regs : list str := [#"AL"; #"CL"; #"DL"; #"BL"; #"AH"; #"CH"; #"DH"; #"BH"].
Definition words_regs : list str := [#"AX"; #"CX"; #"DX"; #"BX"; #"SP"; #"BP"; #"SI"; #"DI"].
Definition doubles_regs : list str := map (app #"E") words_regs.
Definition quads_regs : list str := map (app #"R") words_regs.
Definition control_regs : list str := map (app #"CR") [#"0"; #"1"; #"2"; #"3"; #"4"; #"5"; #"6"; #"7"].
Definition segs_regs : list str := [#"ES"; #"CS"; #"SS"; #"DS"].
(** The combinations of base and index, in the order of the r/m field (16-bit addresses). *)
Definition combos : list (list str) :=
  [ [#"BX"; #"+"; #"SI"]; [#"BX"; #"+"; #"DI"]; [#"BP"; #"+"; #"SI"]; [#"BP"; #"+"; #"DI"];
    [#"SI"]; [#"DI"]; [#"BP"]; [#"BX"] ].
Definition nth_of {X} (l : list X) (n : Z) (x : X) : Prop := 0 <= n /\ nth_error l (Z.to_nat n) = Some x.

(** A word that is neither a register nor a bracket. *)
Definition value_word (t : str) : Prop :=
  ~ In (upper t) (bytes_regs ++ words_regs ++ doubles_regs ++ quads_regs ++ control_regs ++ segs_regs) /\
  t <> #"[" /\ t <> #"]".

(** The words of one operand. *)
Inductive written1 : opd -> list str -> Prop :=
| w_16 n t : nth_of words_regs n (upper t) -> written1 (Reg 16 n) [t]
| w_32 n t : nth_of doubles_regs n (upper t) -> written1 (Reg 32 n) [t]
| w_64 n t : nth_of quads_regs n (upper t) -> written1 (Reg 64 n) [t]
| w_ctl n t : nth_of control_regs n (upper t) -> written1 (Ctl n) [t]
| w_mem m ws : nth_of combos m (map upper ws) -> written1 (Mem m None) (#"[" :: ws ++ [#"]"])
| w_plus m ws d : nth_of combos m (map upper ws) -> value_word d -> hd_error d <> Some "+"%char ->
    written1 (Mem m (Some d)) (#"[" :: ws ++ [#"+"; d; #"]"])
| w_minus m ws d : nth_of combos m (map upper ws) -> value_word d ->
    written1 (Mem m (Some (#"-" ++ d))) (#"[" :: ws ++ [#"-"; d; #"]"])
| w_val t : value_word t -> written1 (Val t) [t].
Inductive written : list opd -> list str -> Prop :=
| w_nil : written [] []
| w_cons o os ws ops : written1 o ws -> written os ops -> written (o :: os) (ws ++ ops).

(** ** The manual *)

(** How the operands enter the machine code: r/m and register; register and r/m; accumulator
    and immediate value; register in the opcode and immediate value; register in the opcode
    alone; a register pushed or popped; control and general register, general and control
    register; register and address; distance from the next instruction; no operands, in the
    modes given and with the operand size given, if any. *)
Inductive form := RmReg | RegRm | AccImm | OpImm | OpReg | Stack | CtlReg | RegCtl | RegAddr | Rel | Alone (modes : list Z) (size : option Z).

Definition alu : list (str * Z) :=
  [(#"ADD", 0); (#"OR", 1); (#"ADC", 2); (#"SBB", 3); (#"AND", 4); (#"SUB", 5); (#"XOR", 6)].
(** The conditions, in the order of their numbers, with their synonyms. *)
Definition conditions : list (list str) :=
  [ [#"O"]; [#"NO"]; [#"B"; #"NAE"; #"C"]; [#"NB"; #"AE"; #"NC"]; [#"Z"; #"E"]; [#"NZ"; #"NE"]; [#"BE"; #"NA"]; [#"NBE"; #"A"];
    [#"S"]; [#"NS"]; [#"P"; #"PE"]; [#"NP"; #"PO"]; [#"L"; #"NGE"]; [#"NL"; #"GE"]; [#"LE"; #"NG"]; [#"NLE"; #"G"] ].
Definition numbered : list (str * Z) :=
  flat_map (fun '(n, l) => map (fun c => (c, n)) l) (combine [0;1;2;3;4;5;6;7;8;9;10;11;12;13;14;15] conditions).

Definition all_modes : list Z := [16; 32; 64].
Definition old_modes : list Z := [16; 32].
(** The string instructions: of bytes, of words and of double words. *)
Definition strings : list (str * (bytes * form)) :=
  map (fun '(n, k) => (n ++ #"B", ([k], Alone all_modes None)))
    [(#"INS", 0x6C); (#"OUTS", 0x6E); (#"MOVS", 0xA4); (#"CMPS", 0xA6); (#"STOS", 0xAA); (#"LODS", 0xAC); (#"SCAS", 0xAE)] ++
  map (fun '(n, k) => (n ++ #"W", ([k], Alone [16] None)))
    [(#"INS", 0x6D); (#"OUTS", 0x6F); (#"MOVS", 0xA5); (#"CMPS", 0xA7); (#"STOS", 0xAB); (#"LODS", 0xAD); (#"SCAS", 0xAF)] ++
  map (fun '(n, k) => (n ++ #"D", ([k], Alone [32; 64] None)))
    [(#"INS", 0x6D); (#"OUTS", 0x6F); (#"MOVS", 0xA5); (#"CMPS", 0xA7); (#"SCAS", 0xAF)] ++
  map (fun '(n, k) => (n ++ #"D", ([k], Alone all_modes (Some 32)))) [(#"STOS", 0xAB); (#"LODS", 0xAD)].
Definition repeats : list (str * Z) :=
  [(#"REP", 0xF3); (#"REPE", 0xF3); (#"REPZ", 0xF3); (#"REPNE", 0xF2); (#"REPNZ", 0xF2)].

Definition manual : list (str * (bytes * form)) :=
  flat_map (fun '(n, k) => [(n, ([8 * k + 1], RmReg)); (n, ([8 * k + 3], RegRm)); (n, ([8 * k + 5], AccImm))]) alu ++
  [(#"MOV", ([0x89], RmReg)); (#"MOV", ([0x8B], RegRm)); (#"MOV", ([0xB8], OpImm));
   (#"MOV", ([0x0F; 0x20], RegCtl)); (#"MOV", ([0x0F; 0x22], CtlReg));
   (#"LEA", ([0x8D], RegAddr)); (#"PUSH", ([0x50], Stack)); (#"POP", ([0x58], Stack));
   (#"BTS", ([0x0F; 0xAB], RmReg)); (#"BTR", ([0x0F; 0xB3], RmReg)); (#"BTC", ([0x0F; 0xBB], RmReg));
   (#"CMPXCHG", ([0x0F; 0xB1], RmReg)); (#"BSF", ([0x0F; 0xBC], RegRm)); (#"BSR", ([0x0F; 0xBD], RegRm));
   (#"BSWAP", ([0x0F; 0xC8], OpReg)); (#"CALL", ([0xE8], Rel)); (#"JMP", ([0xE9], Rel))] ++
  map (fun '(n, k) => (#"CMOV" ++ n, ([0x0F; 0x40 + k], RegRm))) numbered ++
  map (fun '(n, k) => (#"J" ++ n, ([0x0F; 0x80 + k], Rel))) numbered ++
  map (fun '(n, k) => (n, ([k], Alone all_modes None)))
    [(#"NOP", 0x90); (#"WAIT", 0x9B); (#"FWAIT", 0x9B); (#"SAHF", 0x9E); (#"LAHF", 0x9F); (#"RET", 0xC3); (#"LEAVE", 0xC9);
     (#"RETF", 0xCB); (#"XLATB", 0xD7); (#"LOCK", 0xF0); (#"INT1", 0xF1); (#"HLT", 0xF4); (#"CMC", 0xF5); (#"CLC", 0xF8); (#"STC", 0xF9);
     (#"CLI", 0xFA); (#"STI", 0xFB); (#"CLD", 0xFC); (#"STD", 0xFD)] ++
  map (fun '(n, k) => (n, ([k], Alone old_modes None)))
    [(#"DAA", 0x27); (#"DAS", 0x2F); (#"AAA", 0x37); (#"AAS", 0x3F); (#"INTO", 0xCE)] ++
  [(#"PUSHA", ([0x60], Alone [16] None)); (#"POPA", ([0x61], Alone [16] None)); (#"PUSHAD", ([0x60], Alone [32] None)); (#"POPAD", ([0x61], Alone [32] None));
   (#"PUSHF", ([0x9C], Alone [16] None)); (#"POPF", ([0x9D], Alone [16] None)); (#"PUSHFD", ([0x9C], Alone [32] None)); (#"POPFD", ([0x9D], Alone [32] None));
   (#"PUSHFQ", ([0x9C], Alone [64] None)); (#"POPFQ", ([0x9D], Alone [64] None));
   (#"CBW", ([0x98], Alone [16] None)); (#"CWDE", ([0x98], Alone [32; 64] None)); (#"CWD", ([0x99], Alone [16] None)); (#"CDQ", ([0x99], Alone [32; 64] None));
   (#"IRET", ([0xCF], Alone [16] None)); (#"IRETD", ([0xCF], Alone [32; 64] None))] ++ strings.

(** ** Machine code *)

(** The prefix for the operand size that is not the usual one of the mode. *)
Definition size_prefix (mode size : Z) : bytes :=
  if (if mode =? 16 then size =? 32 else size =? 16) then [0x66] else [].
(** mod, reg and r/m in one byte *)
Definition modrm (mod_ reg rm : Z) : Z := mod_ * 64 + reg * 8 + rm.
(** The bytes b, of which there are n, are the number v, in two's complement if it is negative. *)
Definition little (n : Z) (v : Z) (b : bytes) : Prop := Forall is_byte b /\ zlen b = n /\ le_value b = v mod 2 ^ (8 * n).

Section Code.
  Context (p : pcfg) (s : st).

  (** mod, r/m and the displacement of a register or a place in memory. *)
  Inductive place (size : Z) : opd -> Z -> Z -> bytes -> Prop :=
  | p_reg n : place size (Reg size n) 3 n []
  | p_mem m : x86_bits s = 16 -> m <> 6 -> place size (Mem m None) 0 m []
  | p_disp m d v b : x86_bits s = 16 -> size = 16 -> num p s d 16 true v -> little 2 v b ->
      place size (Mem m (Some d)) 2 m b.
  (** An immediate value of n bytes at byte off: a number, or zero with a reference. *)
  Inductive immediate (n off : Z) (t : str) : bytes -> list labeldata -> Prop :=
  | i_num v b : num p s t (8 * n) false v -> little n v b -> immediate n off t b []
  | i_name : not_num p s t (8 * n) false -> immediate n off t (repeat 0 (Z.to_nat n)) [ref t n (8 * n) off 0].
  (** A distance of n bytes at byte off: a number, or zero with a reference relative to the end
      of the instruction. *)
  Inductive distance (n off : Z) (t : str) : bytes -> list labeldata -> Prop :=
  | d_num v b : num p s t 16 true v -> little n v b -> distance n off t b []
  | d_name : not_num p s t 16 true -> distance n off t (repeat 0 (Z.to_nat n)) [ref t 2 16 off (pc s + off + n)].

End Code.

(** The code of an instruction in the mode of s, given what becomes of an immediate value and of
    a distance (number of bytes, where they are, word; the bytes and the references). *)
Section Whole.
  Context (p : pcfg) (s : st) (immediate distance : Z -> Z -> str -> bytes -> list labeldata -> Prop).
  Let mode := x86_bits s.
  Inductive encodes : bytes -> form -> list opd -> bytes -> list labeldata -> Prop :=
  | e_rm_reg op size o r md rm d : In size [16; 32] -> place p s size o md rm d ->
      encodes op RmReg [o; Reg size r] (size_prefix mode size ++ op ++ [modrm md r rm] ++ d) []
  | e_reg_rm op size o r md rm d : In size [16; 32] -> place p s size o md rm d ->
      encodes op RegRm [Reg size r; o] (size_prefix mode size ++ op ++ [modrm md r rm] ++ d) []
  | e_reg_addr op size m a r md rm d : In size [16; 32] -> place p s size (Mem m a) md rm d ->
      encodes op RegAddr [Reg size r; Mem m a] (size_prefix mode size ++ op ++ [modrm md r rm] ++ d) []
  | e_acc_imm op size t b ds : In size [16; 32] ->
      immediate (size / 8) (zlen (size_prefix mode size ++ op)) t b ds ->
      encodes op AccImm [Reg size 0; Val t] (size_prefix mode size ++ op ++ b) ds
  | e_op_imm op size r t b ds : In size [16; 32] ->
      immediate (size / 8) (zlen (size_prefix mode size) + 1) t b ds ->
      encodes [op] OpImm [Reg size r; Val t] (size_prefix mode size ++ [op + r] ++ b) ds
  | e_op_reg x op r : encodes [x; op] OpReg [Reg 32 r] (size_prefix mode 32 ++ [x; op + r]) []
  | e_stack op size r : size = 16 \/ size = 64 /\ mode = 64 ->
      encodes [op] Stack [Reg size r] (size_prefix mode size ++ [op + r]) []
  | e_ctl_reg op n r : In mode [16; 32] -> In n [0; 2; 3; 4] -> encodes op CtlReg [Ctl n; Reg 32 r] (op ++ [modrm 3 n r]) []
  | e_reg_ctl op n r : In mode [16; 32] -> In n [0; 2; 3; 4] -> encodes op RegCtl [Reg 32 r; Ctl n] (op ++ [modrm 3 n r]) []
  | e_rel op t b ds : distance (if mode =? 16 then 2 else 4) (zlen op) t b ds -> encodes op Rel [Val t] (op ++ b) ds
  | e_alone op modes size : In mode modes ->
      encodes op (Alone modes size) [] (match size with Some z => size_prefix mode z | None => [] end ++ op) [].

  (** The instruction m with the operands ops, perhaps repeated. *)
  Inductive coded : str -> list str -> bytes -> list labeldata -> Prop :=
  | n_plain m ops op f os b ds : In (m, (op, f)) manual -> written os ops -> encodes op f os b ds -> coded m ops b ds
  | n_repeat m k t op f b : In (m, k) repeats -> In (upper t, (op, f)) strings -> encodes op f [] b [] -> coded m [t] (k :: b) [].
End Whole.
(** Before linking *)
Definition encoded (p : pcfg) (s : st) : str -> list str -> bytes -> list labeldata -> Prop :=
  coded p s (immediate p s) (distance p s).

(** ** After linking *)
Section Linked.
  Context (p : pcfg) (s s2 : st).
  (** A name is its address. *)
  Inductive immediate2 (n off : Z) (t : str) : bytes -> list labeldata -> Prop :=
  | i2_num v b : num p s t (8 * n) false v -> little n v b -> immediate2 n off t b []
  | i2_name v b : not_num p s t (8 * n) false -> label_absolute p (labels s2) t = Ok (Some v) -> 0 <= v < 2 ^ (8 * n) ->
      little n v b -> immediate2 n off t b [].
  (** A name is its distance, of which the first two bytes are stored. *)
  Inductive distance2 (n off : Z) (t : str) : bytes -> list labeldata -> Prop :=
  | d2_num v b : num p s t 16 true v -> little n v b -> distance2 n off t b []
  | d2_name v b : not_num p s t 16 true -> label_relative p (labels s2) t (pc s + off + n) = Ok (Some v) -> -32768 <= v < 32768 ->
      little 2 v b -> distance2 n off t (b ++ repeat 0 (Z.to_nat (n - 2))) [].
  (** The instruction with its names put in. *)
  Definition resolved (m : str) (ops : list str) (b : bytes) : Prop := coded p s immediate2 distance2 m ops b [].
End Linked.

(** The bytes b at address from are the jump or call m to address a: the processor adds the
    distance to the address of the next instruction. *)
Definition signed_value (n x : Z) : Z := if x <? 2 ^ (8 * n - 1) then x else x - 2 ^ (8 * n).
Inductive lands (mode : Z) (m : str) (from : Z) : bytes -> Z -> Prop :=
| la op b : In (m, (op, Rel)) manual -> Forall is_byte b -> zlen b = (if mode =? 16 then 2 else 4) ->
    lands mode m from (op ++ b) (from + zlen op + zlen b + signed_value (zlen b) (le_value b)).
