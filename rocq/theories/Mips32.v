(** Model of necroassembler/cpu/mips32.py *)
From Verif Require Import Py Utils Tokenizer State Assembler Instr.
Local Open Scope Z_scope.

(** cpu/mips32.py:5-10 REGS_BASE *)
Definition regs_base : list str :=
  [ #"$0"; #"$1"; #"$2"; #"$3"; #"$4"; #"$5"; #"$6"; #"$7"; #"$8"; #"$9"; #"$10"; #"$11";
    #"$12"; #"$13"; #"$14"; #"$15"; #"$16"; #"$17"; #"$18"; #"$19"; #"$20"; #"$21"; #"$22"; #"$23";
    #"$24"; #"$25"; #"$26"; #"$27"; #"$28"; #"$29"; #"$30"; #"$31" ].
(** cpu/mips32.py:12-17 REGS_ALIAS *)
Definition regs_alias : list str :=
  [ #"$zero"; #"$at"; #"$v0"; #"$v1"; #"$a0"; #"$a1"; #"$a2"; #"$a3"; #"$t0"; #"$t1"; #"$t2"; #"$t3";
    #"$t4"; #"$t5"; #"$t6"; #"$t7"; #"$s0"; #"$s1"; #"$s2"; #"$s3"; #"$s4"; #"$s5"; #"$s6"; #"$s7";
    #"$t8"; #"$t9"; #"$k0"; #"$k1"; #"$gp"; #"$sp"; #"$fp"; #"$ra" ].
(** cpu/mips32.py:19 *)
Definition mips_regs : list str := regs_base ++ regs_alias.

(** cpu/mips32.py:22-26 _is_immediate *)
Definition is_immediate (token : str) : bool :=
  negb (str_eqb token []) && negb (starts_with #"$" token).

(** cpu/mips32.py:29-33 _reg.  int(reg[1:]) for a name in REGS_BASE is the index of the
    name: both are tables of the constants above. *)
Definition mips_reg (t : str) : M Z :=
  match index_of (lower t) regs_base with
  | Some i => ret (Z.of_nat i)
  | None =>
      match index_of (lower t) regs_alias with
      | Some i => ret (Z.of_nat i)
      | None => praise ValueError
      end
  end.

(** cpu/mips32.py:38-41 class attributes; [be] is big_endian, True here and False in
    platforms/psx.py:5-7 *)
Definition mips_cfg (be : bool) : pcfg :=
  PCfg [#"0x"] [] [#"0b"] [] [] [] [] [] false 0 be.

Section Handlers.
  Context (be : bool).
  Let p := mips_cfg be.

  (** cpu/mips32.py:43-44 _immediate_signed *)
  Definition immediate_signed (t : str) : M Z :=
    parse_integer_or_label p (LabelData t 4 16 0 0 1 (Some (15, 0)) None None) true.
  (** cpu/mips32.py:46-47 _immediate_unsigned *)
  Definition immediate_unsigned (t : str) : M Z :=
    parse_integer_or_label p (LabelData t 4 16 0 0 1 (Some (15, 0)) None None) false.
  (** cpu/mips32.py:49-53 _offset *)
  Definition mips_offset (t : str) : M Z :=
    let! v := m_parse_integer p t 16 true in
    match v with None => araise LabelNotAllowed | Some v => ret v end.
  (** cpu/mips32.py:55-61 _abs_label *)
  Definition abs_label (t : str) : M Z :=
    let! v := parse_integer_or_label p
      (LabelData t 4 32 0 0 1 (Some (25, 0)) (Some (fun x => Z.shiftr (Z.land x 0x0fffffff) 2)) None) false in
    ret (Z.shiftr v 2).
  (** cpu/mips32.py:63-69 _rel_label *)
  Definition rel_label (t : str) : M Z :=
    let! s := get in
    let! v := parse_integer_or_label p
      (LabelData t 4 18 (pc s + 4) 0 1 (Some (15, 0)) (Some (fun x => Z.shiftr x 2)) None) false in
    ret (Z.shiftr v 2).
  (** cpu/mips32.py:71-87 _immediate32 *)
  Definition immediate32 (high : bool) (t : str) : M Z :=
    if high then
      let! v := parse_integer_or_label p
        (LabelData t 4 32 0 0 1 (Some (15, 0)) (Some (fun x => Z.shiftr x 16)) None) false in
      ret (Z.shiftr v 16)
    else
      let! v := parse_integer_or_label p
        (LabelData t 4 32 0 0 1 (Some (15, 0)) (Some (fun x => Z.land x 0xFFFF)) None) false in
      ret (Z.land v 0xFFFF).
  (** cpu/mips32.py:89-90 _aaaaa *)
  Definition aaaaa (t : str) : M Z :=
    parse_integer_or_label p (LabelData t 4 5 0 0 1 (Some (10, 6)) None None) false.

  (** cpu/mips32.py:92-96 _build_opcode with base 0 *)
  Definition build_opcode (args : list ((Z * Z) * Z)) : M (option bytes) :=
    let! v := lift (pack_bits 0 args) in
    let! b := lift (if be then pack_be32u [Some v] else pack_le32u [Some v]) in
    ret (Some b).

  Let R := PTuple mips_regs.
  Let I := PFun is_immediate.

  (** The number of values of instr.apply is that of the functions given, so the match
      failures below cannot happen. *)
  (** cpu/mips32.py:98-101 _arith_log *)
  Definition arith_log (func : Z) (tokens : list str) : M (option bytes) :=
    if imatch tokens 1 [R; R; R] then
      let! vs := iapply tokens [Some mips_reg; Some mips_reg; Some mips_reg] in
      match vs with
      | [rd; rs; rt] =>
          build_opcode [((25, 21), rs); ((20, 16), rt); ((15, 11), rd); ((5, 0), func)]
      | _ => praise ValueError
      end
    else ret None.
  (** cpu/mips32.py:108-112 _arith_log_i *)
  Definition arith_log_i (op : Z) (signed : bool) (tokens : list str) : M (option bytes) :=
    if imatch tokens 1 [R; R; I] then
      let! vs := iapply tokens [Some mips_reg; Some mips_reg;
                   Some (if signed then immediate_signed else immediate_unsigned)] in
      match vs with
      | [rt; rs; imm] =>
          build_opcode [((31, 26), op); ((25, 21), rs); ((20, 16), rt); ((15, 0), imm)]
      | _ => praise ValueError
      end
    else ret None.
  (** cpu/mips32.py:114-117 _shift *)
  Definition mips_shift (func : Z) (tokens : list str) : M (option bytes) :=
    if imatch tokens 1 [R; R; I] then
      let! vs := iapply tokens [Some mips_reg; Some mips_reg; Some aaaaa] in
      match vs with
      | [rd; rt; shift] =>
          build_opcode [((20, 16), rt); ((15, 11), rd); ((10, 6), shift); ((5, 0), func)]
      | _ => praise ValueError
      end
    else ret None.
  (** cpu/mips32.py:119-122 _shift_v *)
  Definition shift_v (func : Z) (tokens : list str) : M (option bytes) :=
    if imatch tokens 1 [R; R; R] then
      let! vs := iapply tokens [Some mips_reg; Some mips_reg; Some mips_reg] in
      match vs with
      | [rd; rt; rs] =>
          build_opcode [((25, 21), rs); ((20, 16), rt); ((15, 11), rd); ((5, 0), func)]
      | _ => praise ValueError
      end
    else ret None.
  (** cpu/mips32.py:124-127 _load_i *)
  Definition load_i (op : Z) (high : bool) (tokens : list str) : M (option bytes) :=
    if imatch tokens 1 [R; I] then
      let! vs := iapply tokens [Some mips_reg; Some (immediate32 high)] in
      match vs with
      | [rt; imm32] => build_opcode [((31, 26), op); ((20, 16), rt); ((15, 0), imm32)]
      | _ => praise ValueError
      end
    else ret None.
  (** cpu/mips32.py:129-132 _branch *)
  Definition mips_branch (op : Z) (tokens : list str) : M (option bytes) :=
    if imatch tokens 1 [R; R; I] then
      let! vs := iapply tokens [Some mips_reg; Some mips_reg; Some rel_label] in
      match vs with
      | [rs; rt; label] =>
          build_opcode [((31, 26), op); ((25, 21), rs); ((20, 16), rt); ((15, 0), label)]
      | _ => praise ValueError
      end
    else ret None.
  (** cpu/mips32.py:134-137 _branch_z *)
  Definition branch_z (op : Z) (tokens : list str) : M (option bytes) :=
    if imatch tokens 1 [R; I] then
      let! vs := iapply tokens [Some mips_reg; Some rel_label] in
      match vs with
      | [rs; label] => build_opcode [((31, 26), op); ((25, 21), rs); ((15, 0), label)]
      | _ => praise ValueError
      end
    else ret None.
  (** cpu/mips32.py:139-142 _jump *)
  Definition mips_jump (op : Z) (tokens : list str) : M (option bytes) :=
    if imatch tokens 1 [I] then
      let! vs := iapply tokens [Some abs_label] in
      match vs with
      | [label] => build_opcode [((31, 26), op); ((25, 0), label)]
      | _ => praise ValueError
      end
    else ret None.
  (** cpu/mips32.py:144-147 _jump_r *)
  Definition jump_r (func : Z) (tokens : list str) : M (option bytes) :=
    if imatch tokens 1 [R] then
      let! vs := iapply tokens [Some mips_reg] in
      match vs with
      | [rs] => build_opcode [((25, 21), rs); ((5, 0), func)]
      | _ => praise ValueError
      end
    else ret None.
  (** cpu/mips32.py:149-152 _load_store *)
  Definition load_store (op : Z) (tokens : list str) : M (option bytes) :=
    if imatch tokens 1 [R; I; PStr #"("; R; PStr #")"] then
      let! vs := iapply tokens [Some mips_reg; Some mips_offset; None; Some mips_reg; None] in
      match vs with
      | [rt; imm; rs] =>
          build_opcode [((31, 26), op); ((25, 21), rs); ((20, 16), rt); ((15, 0), imm)]
      | _ => praise ValueError
      end
    else ret None.
  (** cpu/mips32.py:154-157 _move_from *)
  Definition move_from (func : Z) (tokens : list str) : M (option bytes) :=
    if imatch tokens 1 [R] then
      let! vs := iapply tokens [Some mips_reg] in
      match vs with
      | [rd] => build_opcode [((15, 11), rd); ((5, 0), func)]
      | _ => praise ValueError
      end
    else ret None.
  (** cpu/mips32.py:159-162 _move_to *)
  Definition move_to (func : Z) (tokens : list str) : M (option bytes) :=
    if imatch tokens 1 [R] then
      let! vs := iapply tokens [Some mips_reg] in
      match vs with
      | [rs] => build_opcode [((25, 21), rs); ((5, 0), func)]
      | _ => praise ValueError
      end
    else ret None.
  (** cpu/mips32.py:164-166 _no_args *)
  Definition no_args (func : Z) (tokens : list str) : M (option bytes) :=
    if Nat.eqb (length tokens) 1 then build_opcode [((5, 0), func)] else ret None.

  (** cpu/mips32.py:192-214, 244-254: _div_mult(func, instr) and _arith_log(func, instr)
      have their arguments in the wrong order, so instr.match is looked up on an int:
      AttributeError.  (_div_mult, 103-107, is not called in any other way.) *)
  Definition swapped (tokens : list str) : M (option bytes) := praise AttributeError.
End Handlers.

(** The body of an opcode method: which of the functions above it calls and with which
    constants. cpu/mips32.py:168-378 *)
Inductive mips_call :=
| ArithLog (func : Z) | ArithLogI (op : Z) (signed : bool) | Shift (func : Z) | ShiftV (func : Z)
| LoadI (op : Z) (high : bool) | Branch (op : Z) | BranchZ (op : Z) | Jump (op : Z) | JumpR (func : Z)
| LoadStore (op : Z) | MoveFrom (func : Z) | MoveTo (func : Z) | NoArgs (func : Z) | Swapped.
(** cpu/mips32.py:168-378: the calls of the methods at 98-164 *)
Definition mips_run (be : bool) (k : mips_call) : list str -> M (option bytes) :=
  match k with
  | ArithLog f => arith_log be f | ArithLogI o s => arith_log_i be o s | Shift f => mips_shift be f
  | ShiftV f => shift_v be f | LoadI o h => load_i be o h | Branch o => mips_branch be o
  | BranchZ o => branch_z be o | Jump o => mips_jump be o | JumpR f => jump_r be f
  | LoadStore o => load_store be o | MoveFrom f => move_from be f | MoveTo f => move_to be f
  | NoArgs f => no_args be f | Swapped => swapped
  end.

(** cpu/mips32.py:169-378 the opcode methods *)
Definition mips_calls : list (str * mips_call) :=
  [ (#"add", ArithLog 32); (#"addu", ArithLog 33); (#"addi", ArithLogI 8 true);
    (#"addiu", ArithLogI 9 false); (#"and", ArithLog 36); (#"andi", ArithLogI 12 true);
    (#"div", Swapped); (#"divu", Swapped); (#"mult", Swapped); (#"multu", Swapped);
    (#"nor", Swapped); (#"or", Swapped); (#"ori", ArithLogI 13 true);
    (#"sll", Shift 0); (#"sllv", ShiftV 4); (#"sra", Shift 3); (#"srav", ShiftV 7);
    (#"srl", Shift 2); (#"srlv", ShiftV 6); (#"sub", Swapped); (#"subu", Swapped);
    (#"xor", Swapped); (#"xori", ArithLogI 14 true); (#"lui", LoadI 15 true);
    (#"lhi", LoadI 25 true); (#"llo", LoadI 24 false); (#"slt", ArithLog 42);
    (#"sltu", ArithLog 41); (#"slti", ArithLogI 10 true); (#"sltiu", ArithLogI 9 false);
    (#"beq", Branch 4); (#"bgtz", BranchZ 7); (#"blez", BranchZ 6); (#"bne", Branch 5);
    (#"j", Jump 2); (#"jal", Jump 3); (#"jalr", JumpR 9); (#"jr", JumpR 8);
    (#"lb", LoadStore 32); (#"lbu", LoadStore 36); (#"lh", LoadStore 33); (#"lhu", LoadStore 37);
    (#"lw", LoadStore 35); (#"sb", LoadStore 40); (#"sh", LoadStore 41); (#"sw", LoadStore 43);
    (#"mfhi", MoveFrom 16); (#"mflo", MoveFrom 18); (#"mthi", MoveTo 17); (#"mtlo", MoveTo 19);
    (#"trap", Jump 26); (#"break", NoArgs 13); (#"syscall", NoArgs 12) ].

(** cpu/mips32.py:36 AssemblerMIPS32 and platforms/psx.py:5 AssemberPSX *)
Definition mips32 (be : bool) (e : env) : cfg :=
  mk_cfg (mips_cfg be) e (map (fun '(n, k) => (n, OFun (mips_run be k))) mips_calls) [] [] [].
