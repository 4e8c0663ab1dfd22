(** The MIPS I instruction set as documented: registers, instruction formats and
    encodings. *)
From Verif Require Import Py Utils Tokenizer State Assembler SpecUtils SpecExec SpecLink SpecCpu.
Local Open Scope Z_scope.

(** Register names, numeric and conventional. *)
Definition reg_names : list (str * Z) :=
  [ (#"$0", 0); (#"$zero", 0); (#"$1", 1); (#"$at", 1); (#"$2", 2); (#"$v0", 2); (#"$3", 3); (#"$v1", 3);
    (#"$4", 4); (#"$a0", 4); (#"$5", 5); (#"$a1", 5); (#"$6", 6); (#"$a2", 6); (#"$7", 7); (#"$a3", 7);
    (#"$8", 8); (#"$t0", 8); (#"$9", 9); (#"$t1", 9); (#"$10", 10); (#"$t2", 10); (#"$11", 11); (#"$t3", 11);
    (#"$12", 12); (#"$t4", 12); (#"$13", 13); (#"$t5", 13); (#"$14", 14); (#"$t6", 14); (#"$15", 15);
    (#"$t7", 15); (#"$16", 16); (#"$s0", 16); (#"$17", 17); (#"$s1", 17); (#"$18", 18); (#"$s2", 18);
    (#"$19", 19); (#"$s3", 19); (#"$20", 20); (#"$s4", 20); (#"$21", 21); (#"$s5", 21); (#"$22", 22);
    (#"$s6", 22); (#"$23", 23); (#"$s7", 23); (#"$24", 24); (#"$t8", 24); (#"$25", 25); (#"$t9", 25);
    (#"$26", 26); (#"$k0", 26); (#"$27", 27); (#"$k1", 27); (#"$28", 28); (#"$gp", 28); (#"$29", 29);
    (#"$sp", 29); (#"$30", 30); (#"$fp", 30); (#"$31", 31); (#"$ra", 31) ].
(** Upper and lower case do not matter. *)
Definition reg (t : str) (n : Z) : Prop := In (lower t, n) reg_names.

(** Operand words that are not registers. *)
Definition plain (t : str) : Prop := exists c r, t = c :: r /\ c <> "$"%char.

(** Instruction words. *)
Definition r_word (rs rt rd sa fn : Z) : Z :=
  rs * 2 ^ 21 + rt * 2 ^ 16 + rd * 2 ^ 11 + sa * 2 ^ 6 + fn.
Definition i_word (op rs rt imm : Z) : Z := op * 2 ^ 26 + rs * 2 ^ 21 + rt * 2 ^ 16 + imm mod 2 ^ 16.
Definition j_word (op tgt : Z) : Z := op * 2 ^ 26 + tgt.

(** The four bytes of a word. *)
Definition word_bytes (be : bool) (w : Z) : bytes :=
  let l := [w mod 256; w / 256 mod 256; w / 65536 mod 256; w / 16777216 mod 256] in
  if be then rev l else l.

(** Assembly formats of the manual. *)
Inductive format :=
| RdRsRt (fn : Z)          (* op rd, rs, rt *)
| RdRtRs (fn : Z)          (* op rd, rt, rs *)
| RdRtSa (fn : Z)          (* op rd, rt, amount *)
| RsRt (fn : Z)            (* op rs, rt *)
| RtRsImm (op : Z) (signed : bool)  (* op rt, rs, immediate *)
| RtHigh (op : Z)          (* op rt, upper half of a 32 bit value *)
| RtLow (op : Z)           (* op rt, lower half of a 32 bit value *)
| RsRtTarget (op : Z)      (* op rs, rt, branch target *)
| RsTarget (op : Z)        (* op rs, branch target *)
| Target (op : Z)          (* op jump target *)
| Rs (fn : Z)              (* op rs *)
| RsLink (fn : Z)          (* op rs, with the link register $31 as rd *)
| RtOffset (op : Z)        (* op rt, offset ( rs ) *)
| Rd (fn : Z)              (* op rd *)
| NoOperand (fn : Z).      (* op *)

(** The manual.  Immediates of addiu and sltiu are taken unsigned and those of andi, ori
    and xori signed, which is how the assembler reads them. *)
Definition manual : list (str * format) :=
  [ (#"add", RdRsRt 0x20); (#"addu", RdRsRt 0x21); (#"sub", RdRsRt 0x22); (#"subu", RdRsRt 0x23);
    (#"and", RdRsRt 0x24); (#"or", RdRsRt 0x25); (#"xor", RdRsRt 0x26); (#"nor", RdRsRt 0x27);
    (#"slt", RdRsRt 0x2A); (#"sltu", RdRsRt 0x2B);
    (#"sll", RdRtSa 0x00); (#"srl", RdRtSa 0x02); (#"sra", RdRtSa 0x03);
    (#"sllv", RdRtRs 0x04); (#"srlv", RdRtRs 0x06); (#"srav", RdRtRs 0x07);
    (#"mult", RsRt 0x18); (#"multu", RsRt 0x19); (#"div", RsRt 0x1A); (#"divu", RsRt 0x1B);
    (#"jr", Rs 0x08); (#"jalr", RsLink 0x09); (#"syscall", NoOperand 0x0C); (#"break", NoOperand 0x0D);
    (#"mfhi", Rd 0x10); (#"mthi", Rs 0x11); (#"mflo", Rd 0x12); (#"mtlo", Rs 0x13);
    (#"addi", RtRsImm 0x08 true); (#"addiu", RtRsImm 0x09 false); (#"slti", RtRsImm 0x0A true);
    (#"sltiu", RtRsImm 0x0B false); (#"andi", RtRsImm 0x0C true); (#"ori", RtRsImm 0x0D true);
    (#"xori", RtRsImm 0x0E true); (#"lui", RtHigh 0x0F);
    (#"beq", RsRtTarget 0x04); (#"bne", RsRtTarget 0x05); (#"blez", RsTarget 0x06); (#"bgtz", RsTarget 0x07);
    (#"j", Target 0x02); (#"jal", Target 0x03);
    (#"lb", RtOffset 0x20); (#"lh", RtOffset 0x21); (#"lw", RtOffset 0x23); (#"lbu", RtOffset 0x24);
    (#"lhu", RtOffset 0x25); (#"sb", RtOffset 0x28); (#"sh", RtOffset 0x29); (#"sw", RtOffset 0x2B);
    (#"llo", RtLow 0x18); (#"lhi", RtHigh 0x19); (#"trap", Target 0x1A) ].

(** Instructions the assembler never accepts, and those it encodes differently. *)
Definition refused : list str :=
  [ #"sub"; #"subu"; #"or"; #"xor"; #"nor"; #"mult"; #"multu"; #"div"; #"divu" ].
Definition deviating : list str := [ #"sltu"; #"sltiu"; #"jalr" ].

Definition mips_p (be : bool) : pcfg := PCfg [#"0x"] [] [#"0b"] [] [] [] [] [] false 0 be.

(** A field of bits lo..hi of the instruction word, to be filled in by the linker with
    f applied to the address of t or to its distance from rel. *)
Definition word_ref (t : str) (bits rel hi lo : Z) (f : option (Z -> Z)) : labeldata :=
  LabelData t 4 bits rel 0 1 (Some (hi, lo)) f None.

Section Operands.
  Context (be : bool) (s : st).
  (** A number, or a reference which leaves 0 in the word for now. *)
  Inductive value (t : str) (bits : Z) (signed : bool) (d : labeldata) : Z -> list labeldata -> Prop :=
  | v_number v : num (mips_p be) s t bits signed v -> value t bits signed d v []
  | v_name : not_num (mips_p be) s t bits signed -> value t bits signed d 0 [d].

  Inductive encodes : format -> list str -> Z -> list labeldata -> Prop :=
  | e_rd_rs_rt fn a b c rd rs rt : reg a rd -> reg b rs -> reg c rt ->
      encodes (RdRsRt fn) [a; b; c] (r_word rs rt rd 0 fn) []
  | e_rd_rt_rs fn a b c rd rs rt : reg a rd -> reg b rt -> reg c rs ->
      encodes (RdRtRs fn) [a; b; c] (r_word rs rt rd 0 fn) []
  | e_rd_rt_sa fn a b t rd rt sa ds : reg a rd -> reg b rt -> plain t ->
      value t 5 false (word_ref t 5 0 10 6 None) sa ds ->
      encodes (RdRtSa fn) [a; b; t] (r_word 0 rt rd sa fn) ds
  | e_rs_rt fn a b rs rt : reg a rs -> reg b rt ->
      encodes (RsRt fn) [a; b] (r_word rs rt 0 0 fn) []
  | e_rt_rs_imm op sg a b t rt rs v ds : reg a rt -> reg b rs -> plain t ->
      value t 16 sg (word_ref t 16 0 15 0 None) v ds ->
      encodes (RtRsImm op sg) [a; b; t] (i_word op rs rt v) ds
  | e_rt_high op a t rt v ds : reg a rt -> plain t ->
      value t 32 false (word_ref t 32 0 15 0 (Some (fun x => Z.shiftr x 16))) v ds ->
      encodes (RtHigh op) [a; t] (i_word op 0 rt (v / 65536)) ds
  | e_rt_low op a t rt v ds : reg a rt -> plain t ->
      value t 32 false (word_ref t 32 0 15 0 (Some (fun x => Z.land x 0xFFFF))) v ds ->
      encodes (RtLow op) [a; t] (i_word op 0 rt v) ds
  | e_rs_rt_target op a b t rs rt v ds : reg a rs -> reg b rt -> plain t ->
      value t 18 (negb (pc s + 4 =? 0)) (word_ref t 18 (pc s + 4) 15 0 (Some (fun x => Z.shiftr x 2))) v ds ->
      encodes (RsRtTarget op) [a; b; t] (i_word op rs rt (v / 4)) ds
  | e_rs_target op a t rs v ds : reg a rs -> plain t ->
      value t 18 (negb (pc s + 4 =? 0)) (word_ref t 18 (pc s + 4) 15 0 (Some (fun x => Z.shiftr x 2))) v ds ->
      encodes (RsTarget op) [a; t] (i_word op rs 0 (v / 4)) ds
  | e_target op t v ds : plain t ->
      value t 32 false (word_ref t 32 0 25 0 (Some (fun x => Z.shiftr (Z.land x 0x0fffffff) 2))) v ds ->
      v < 2 ^ 28 ->
      encodes (Target op) [t] (j_word op (v / 4)) ds
  | e_rs fn a rs : reg a rs -> encodes (Rs fn) [a] (r_word rs 0 0 0 fn) []
  | e_rs_link fn a rs : reg a rs -> encodes (RsLink fn) [a] (r_word rs 0 31 0 fn) []
  | e_rt_offset op a t b rt rs v : reg a rt -> reg b rs -> plain t ->
      num (mips_p be) s t 16 true v ->
      encodes (RtOffset op) [a; t; #"("; b; #")"] (i_word op rs rt v) []
  | e_rd fn a rd : reg a rd -> encodes (Rd fn) [a] (r_word 0 0 rd 0 fn) []
  | e_none fn : encodes (NoOperand fn) [] (r_word 0 0 0 0 fn) [].
End Operands.
