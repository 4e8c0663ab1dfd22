(** Model of cpu/mc68000.py *)
From Verif Require Import Py Utils State Assembler Instr.
Local Open Scope Z_scope.

(** cpu/mc68000.py:105-109 *)
Definition mc_p : pcfg := PCfg [#"$"] [] [#"%"] [] [] [] [] [] false 0 true.

(** ** Token classes *)

(** cpu/mc68000.py:11 D_REGS *)
Definition d_regs : list str := [#"d0"; #"d1"; #"d2"; #"d3"; #"d4"; #"d5"; #"d6"; #"d7"].
(** cpu/mc68000.py:12 A_REGS *)
Definition a_regs : list str := [#"a0"; #"a1"; #"a2"; #"a3"; #"a4"; #"a5"; #"a6"; #"a7"].
(** cpu/mc68000.py:14-15 CONDITIONS *)
Definition mc_conditions : list str :=
  [#"T"; #"F"; #"HI"; #"LS"; #"CC"; #"CS"; #"NE"; #"EQ";
   #"VC"; #"VS"; #"PL"; #"MI"; #"GE"; #"LT"; #"GT"; #"LE"].

(** cpu/mc68000.py:18-19 *)
Definition mc_is_immediate (t : str) : bool := Nat.ltb 1 (length t) && starts_with #"#" t.
(** cpu/mc68000.py:22-23 *)
Definition mc_is_displacement (t : str) : bool :=
  negb (str_in (lower t) (d_regs ++ a_regs ++ [#"("; #")"])) && negb (starts_with #"#" t).
(** cpu/mc68000.py:26-27 *)
Definition mc_is_absolute_w (t : str) : bool := mc_is_displacement t && ends_with #".w" (lower t).
(** cpu/mc68000.py:30-31 *)
Definition mc_is_absolute_l (t : str) : bool := mc_is_displacement t && ends_with #".l" (lower t).
(** cpu/mc68000.py:34-39; the last test is sensitive to case *)
Definition mc_is_indexed_reg (t : str) : bool :=
  if ends_with #".w" (lower t) then str_in (drop_last 2 (lower t)) (d_regs ++ a_regs)
  else if ends_with #".l" (lower t) then str_in (drop_last 2 (lower t)) (d_regs ++ a_regs)
  else str_in t (d_regs ++ a_regs).

(** ** Fields of the instruction word *)

(** cpu/mc68000.py:53-54 *)
Definition mc_reg (t : str) : res Z :=
  match py_int 10 (skipn 1 t) with Some v => Ok v | None => Err (PExc ValueError) end.
(** cpu/mc68000.py:57-60 *)
Definition mc_cond (t : str) : res Z :=
  let n := upper (firstn 2 t) in
  if str_eqb n #"RA" then Ok 1 else
  match index_of n mc_conditions with Some i => Ok (Z.of_nat i) | None => Err (PExc ValueError) end.
(** cpu/mc68000.py:63-69 *)
Definition mc_indexed_reg (t : str) : res (Z * Z * Z) :=
  let d_or_a := if starts_with #"d" (lower t) then 0 else 1 in
  if ends_with #".w" (lower t) then let? r := mc_reg (drop_last 2 t) in Ok (d_or_a, r, 0)
  else if ends_with #".l" (lower t) then let? r := mc_reg (drop_last 2 t) in Ok (d_or_a, r, 1)
  else let? r := mc_reg t in Ok (d_or_a, r, 0).
(** cpu/mc68000.py:72-80 *)
Definition mc_s_light (t : str) : Z * Z :=
  let t := lower t in
  if ends_with #".b" t then (1, 0) else if ends_with #".l" t then (4, 2)
  else if ends_with #".w" t then (2, 1) else (2, 1).
(** cpu/mc68000.py:83-91 *)
Definition mc_s_dark (t : str) : Z * Z :=
  let t := lower t in
  if ends_with #".b" t then (1, 1) else if ends_with #".l" t then (4, 2)
  else if ends_with #".w" t then (2, 3) else (2, 3).

(** cpu/mc68000.py:251-252 *)
Definition mc_build (base : Z) (fs : list ((Z * Z) * Z)) : M bytes := lift (pack_bits_be16u base fs).

(** cpu/mc68000.py:254-258 *)
Definition mc_packer (token : str) (op_size offset : Z) : M bytes :=
  let! value := parse_integer_or_label mc_p
    (LabelData token (op_size + op_size mod 2) (op_size * 8) 0 (2 + offset) 1 None None None) false in
  if (op_size =? 1) || (op_size =? 2) then lift (pack_be16u [Some value])
  else if op_size =? 4 then lift (pack_be32u [Some value])
  else praise KeyError.

(** ** Addressing modes *)

(** cpu/mc68000.py:49-50 MODES *)
Definition mc_modes : list str :=
  [#"Dn"; #"An"; #"(An)"; #"(An)+"; #"-(An)"; #"(d16,An)"; #"(d8,An,Xn)";
   #"(xxx).W"; #"(xxx).L"; #"#<data>"; #"(d16,PC)"; #"(d8,PC,Xn)"].

(** What the body of one branch of _mode does; cpu/mc68000.py:124-247 *)
Inductive mc_shape :=
| ShReg (mode : Z) (i : nat)   (* register in token i, no extension word *)
| ShDisp | ShIndex | ShPcDisp | ShPcIndex
| ShAbsW | ShAbsL | ShImm | ShAliasW | ShAliasL | ShAlias.

(** The branches of _mode in the order in which they are tried: name in the blacklist,
    patterns, body.  cpu/mc68000.py:121-247 *)
Definition mc_rows : list (str * list pattern * mc_shape) :=
  [ (#"Dn", [PTuple d_regs], ShReg 0 0);                                                (* 122-124 *)
    (#"An", [PTuple a_regs], ShReg 1 0);                                                (* 127-129 *)
    (#"(An)+", [PStr #"("; PTuple a_regs; PStr #")"; PStr #"+"], ShReg 3 1);            (* 132-135 *)
    (#"(An)", [PStr #"("; PTuple a_regs; PStr #")"], ShReg 2 1);                        (* 138-140 *)
    (#"-(An)", [PStr #"-"; PStr #"("; PTuple a_regs; PStr #")"], ShReg 4 2);            (* 143-146 *)
    (#"(d16,An)", [PStr #"("; PFun mc_is_displacement; PTuple a_regs; PStr #")"], ShDisp);  (* 149-157 *)
    (#"(d8,An,Xn)", [PStr #"("; PFun mc_is_displacement; PTuple a_regs; PFun mc_is_indexed_reg; PStr #")"], ShIndex); (* 160-170 *)
    (#"(d16,PC)", [PStr #"("; PFun mc_is_displacement; PStr #"PC"; PStr #")"], ShPcDisp);   (* 173-181 *)
    (#"(d8,PC,Xn)", [PStr #"("; PFun mc_is_displacement; PStr #"PC"; PFun mc_is_indexed_reg; PStr #")"], ShPcIndex); (* 184-194 *)
    (#"(xxx).W", [PStr #"("; PFun mc_is_displacement; PStr #")"; PStr #".W"], ShAbsW);  (* 197-204 *)
    (#"(xxx).L", [PStr #"("; PFun mc_is_displacement; PStr #")"; PStr #".L"], ShAbsL);  (* 207-214 *)
    (#"#<data>", [PFun mc_is_immediate], ShImm);                                        (* 217-220 *)
    (#"(xxx).W", [PFun mc_is_absolute_w], ShAliasW);                                    (* 223-229 *)
    (#"(xxx).L", [PFun mc_is_absolute_l], ShAliasL);                                    (* 232-238 *)
    (#"(xxx).L", [PFun mc_is_displacement], ShAlias) ].                                 (* 241-247 *)

(** cpu/mc68000.py:200-204, 225-229: a 16 bit address *)
Definition mc_abs_w (t : str) (offset : Z) : M (Z * Z * bytes) :=
  let! v := parse_integer_or_label mc_p (LabelData t 2 16 0 (2 + offset) 1 None None None) false in
  let! b := lift (pack_be16u [Some v]) in ret (7, 0, b).
(** cpu/mc68000.py:210-214, 234-238, 243-247: a 32 bit address *)
Definition mc_abs_l (t : str) (offset : Z) : M (Z * Z * bytes) :=
  let! v := parse_integer_or_label mc_p (LabelData t 4 32 0 (2 + offset) 1 None None None) false in
  let! b := lift (pack_be32u [Some v]) in ret (7, 1, b).

(** cpu/mc68000.py:170, 194: the extension word with an index register *)
Definition mc_ext (x : Z * Z * Z) (value : Z) : M bytes :=
  let '(m, xn, s) := x in
  lift (pack_bits_be16u 0 [((15, 15), m); ((14, 12), xn); ((11, 11), s); ((7, 0), value)]).

(** The bodies: mode, register and extension bytes.  cpu/mc68000.py:124-247 *)
Definition mc_body (sh : mc_shape) (tokens : list str) (start : nat) (offset size : Z) : M (Z * Z * bytes) :=
  match sh with
  | ShReg m i =>
      let! t := tok_at tokens (start + i) in let! r := lift (mc_reg t) in ret (m, r, [])
  | ShDisp =>
      let! t := tok_at tokens (start + 1) in
      let! v := parse_integer_or_label mc_p (LabelData t 2 16 0 (2 + offset) 1 None None None) true in
      let! a := tok_at tokens (start + 2) in let! r := lift (mc_reg a) in
      let! b := lift (pack_be16u [Some v]) in ret (5, r, b)
  | ShIndex =>
      let! t := tok_at tokens (start + 1) in
      let! v := parse_integer_or_label mc_p (LabelData t 2 8 0 (2 + offset) 1 (Some (7, 0)) None None) true in
      let! x := tok_at tokens (start + 3) in let! i := lift (mc_indexed_reg x) in
      let! a := tok_at tokens (start + 2) in let! r := lift (mc_reg a) in
      let! b := mc_ext i v in ret (6, r, b)
  | ShPcDisp =>
      let! t := tok_at tokens (start + 1) in
      let! s := get in
      let! v := parse_integer_or_label mc_p (LabelData t 2 16 (pc s + 2 + offset) (2 + offset) 1 None None None) false in
      let! b := lift (pack_be16u [Some v]) in ret (7, 2, b)
  | ShPcIndex =>
      let! t := tok_at tokens (start + 1) in
      let! s := get in
      let! v := parse_integer_or_label mc_p
        (LabelData t 2 8 (pc s + 2 + offset) (2 + offset) 1 (Some (7, 0)) None None) false in
      let! x := tok_at tokens (start + 3) in let! i := lift (mc_indexed_reg x) in
      let! b := mc_ext i v in ret (7, 3, b)
  | ShAbsW => let! t := tok_at tokens (start + 1) in mc_abs_w t offset
  | ShAbsL => let! t := tok_at tokens (start + 1) in mc_abs_l t offset
  | ShImm =>
      let! t := tok_at tokens start in
      let! b := mc_packer (skipn 1 t) size offset in ret (7, 4, b)
  | ShAliasW => let! t := tok_at tokens start in mc_abs_w (drop_last 2 t) offset
  | ShAliasL => let! t := tok_at tokens start in mc_abs_l (drop_last 2 t) offset
  | ShAlias => let! t := tok_at tokens start in mc_abs_l t offset
  end.

(** The first branch that matches and is not in the blacklist; cpu/mc68000.py:121-249 *)
Definition mc_find (tokens : list str) (start : nat) (blacklist : list str) : option (str * list pattern * mc_shape) :=
  find (fun '(name, ps, _) =>
          match unbound_match tokens start ps with Some _ => true | None => false end &&
          negb (str_in name blacklist)) mc_rows.

(** cpu/mc68000.py:115-249 _mode: index after the operand, mode, register, extension
    bytes. *)
Definition mc_mode (tokens : list str) (start : nat) (offset size : Z) (blacklist : list str)
  : M (nat * Z * Z * bytes) :=
  if negb (forallb (fun b => str_in b mc_modes) blacklist) then araise InvalidMode else
  match mc_find tokens start blacklist with
  | Some (_, ps, sh) =>
      let! r := mc_body sh tokens start offset size in
      let '(m, xn, b) := r in
      ret ((start + length ps)%nat, m, xn, b)
  | None => araise InvalidMode
  end.

(** ** Instructions *)

(** cpu/mc68000.py:268, 291, 307, 317, 327, 343, 353 *)
Definition not_alterable : list str := [#"An"; #"#<data>"; #"(d16,PC)"; #"(d8,PC,Xn)"].
(** cpu/mc68000.py:359, 365, 412 *)
Definition not_control : list str := [#"Dn"; #"An"; #"(An)+"; #"-(An)"; #"#<data>"].

(** cpu/mc68000.py:266, 276 *)
Definition mc_to_address (tokens : list str) (next : nat) (s src_m src_xn : Z) (src_data : bytes) : M (option bytes) :=
  let! t := tok_at tokens next in let! r := lift (mc_reg t) in
  let! w := mc_build 0x0040 [((13, 12), s); ((11, 9), r); ((5, 3), src_m); ((2, 0), src_xn)] in
  ret (Some (w ++ src_data)).

(** cpu/mc68000.py:260-269 *)
Definition mc_move (tokens : list str) : M (option bytes) :=
  let! t0 := tok_at tokens 0 in
  let '(op_size, s) := mc_s_dark t0 in
  let! src := mc_mode tokens 1 0 op_size [] in
  let '(next, src_m, src_xn, src_data) := src in
  if ((op_size =? 2) || (op_size =? 4)) && imatch tokens next [PTuple a_regs] then
    mc_to_address tokens next s src_m src_xn src_data
  else
    let! dst := mc_mode tokens next (zlen src_data) op_size not_alterable in
    let '(_, dst_m, dst_xn, dst_data) := dst in
    let! w := mc_build 0 [((13, 12), s); ((11, 9), dst_xn); ((8, 6), dst_m); ((5, 3), src_m); ((2, 0), src_xn)] in
    ret (Some (w ++ src_data ++ dst_data)).

(** cpu/mc68000.py:271-276 *)
Definition mc_movea (tokens : list str) : M (option bytes) :=
  let! t0 := tok_at tokens 0 in
  let '(op_size, s) := mc_s_dark t0 in
  let! src := mc_mode tokens 1 0 op_size [] in
  let '(next, src_m, src_xn, src_data) := src in
  if imatch tokens next [PTuple a_regs] then mc_to_address tokens next s src_m src_xn src_data
  else ret None.

(** cpu/mc68000.py:278-354: ori, andi, subi, addi, eori and cmpi differ in the base and
    in whether they know the status registers (lines 280-285, 296-301, 332-337). *)
Definition mc_immediate (base : Z) (status : bool) (tokens : list str) : M (option bytes) :=
  if status && imatch tokens 1 [PFun mc_is_immediate; PStr #"CCR"] then
    let! t := tok_at tokens 1 in
    let! b := mc_packer (skipn 1 t) 1 0 in
    let! w := mc_build (base + 0x3C) [] in ret (Some (w ++ b))
  else if status && imatch tokens 1 [PFun mc_is_immediate; PStr #"SR"] then
    let! t := tok_at tokens 1 in
    let! b := mc_packer (skipn 1 t) 2 0 in
    let! w := mc_build (base + 0x7C) [] in ret (Some (w ++ b))
  else match unbound_match tokens 1 [PFun mc_is_immediate] with
  | Some index =>
      let! t0 := tok_at tokens 0 in
      let '(op_size, s) := mc_s_light t0 in
      let! t := tok_at tokens 1 in
      let! b := mc_packer (skipn 1 t) op_size 0 in
      let! dst := mc_mode tokens index (op_size + op_size mod 2) op_size not_alterable in
      let '(_, dst_m, dst_xn, dst_data) := dst in
      let! w := mc_build base [((7, 6), s); ((5, 3), dst_m); ((2, 0), dst_xn)] in
      ret (Some (w ++ b ++ dst_data))
  | None => ret None
  end.

(** cpu/mc68000.py:356-360, 409-413: jmp and jsr *)
Definition mc_jump (base : Z) (tokens : list str) : M (option bytes) :=
  let! src := mc_mode tokens 1 0 0 not_control in
  let '(_, src_m, src_xn, src_data) := src in
  let! w := mc_build base [((5, 3), src_m); ((2, 0), src_xn)] in ret (Some (w ++ src_data)).

(** cpu/mc68000.py:362-367 *)
Definition mc_lea (tokens : list str) : M (option bytes) :=
  let! src := mc_mode tokens 1 0 4 not_control in
  let '(next, src_m, src_xn, src_data) := src in
  if imatch tokens next [PTuple a_regs] then
    let! t := tok_at tokens next in let! r := lift (mc_reg t) in
    let! w := mc_build 0x41C0 [((11, 9), r); ((5, 3), src_m); ((2, 0), src_xn)] in
    ret (Some (w ++ src_data))
  else ret None.

(** cpu/mc68000.py:369-392.  No name bound to it ends in .l, so op_size is 1 or 2. *)
Definition mc_bcc (tokens : list str) : M (option bytes) :=
  if imatch tokens 1 [PFun mc_is_displacement] then
    let! t0 := tok_at tokens 0 in
    let! condition := lift (mc_cond (skipn 1 t0)) in
    let '(op_size, _) := mc_s_dark t0 in
    let! t := tok_at tokens 1 in
    let! s := get in
    if op_size =? 1 then
      let! v := parse_integer_or_label mc_p (LabelData t 2 8 (pc s + 2) 0 2 (Some (7, 0)) None None) false in
      let! w := mc_build 0x6000 [((11, 8), condition); ((7, 0), v)] in ret (Some w)
    else if op_size =? 2 then
      let! v := parse_integer_or_label mc_p (LabelData t 2 16 (pc s + 2) 2 2 None None None) false in
      let! w := mc_build 0x6000 [((11, 8), condition)] in
      let! b := lift (pack_be16u [Some v]) in ret (Some (w ++ b))
    else ret None
  else ret None.

(** cpu/mc68000.py:394-407 *)
Definition mc_dbcc (tokens : list str) : M (option bytes) :=
  if imatch tokens 1 [PTuple d_regs; PFun mc_is_displacement] then
    let! t0 := tok_at tokens 0 in
    let! condition := lift (mc_cond (skipn 2 t0)) in
    let! t1 := tok_at tokens 1 in
    let! d_reg := lift (mc_reg t1) in
    let! t := tok_at tokens 2 in
    let! s := get in
    let! v := parse_integer_or_label mc_p (LabelData t 2 16 (pc s + 2) 2 2 None None None) false in
    let! w := mc_build 0x50C8 [((11, 8), condition); ((2, 0), d_reg)] in
    let! b := lift (pack_be16u [Some v]) in ret (Some (w ++ b))
  else ret None.

(** The opcode methods; cpu/mc68000.py:260-413 *)
Inductive mc_call := CMove | CMovea | CImm (base : Z) (status : bool) | CJump (base : Z) | CLea | CBcc | CDbcc.
(** cpu/mc68000.py:260-413 *)
Definition mc_run (k : mc_call) : list str -> M (option bytes) :=
  match k with
  | CMove => mc_move | CMovea => mc_movea | CImm base st => mc_immediate base st | CJump base => mc_jump base
  | CLea => mc_lea | CBcc => mc_bcc | CDbcc => mc_dbcc
  end.

(** The names given to @opcode; cpu/mc68000.py:260, 271, 278, 294, 310, 320, 330, 346, 356,
    362, 369-372, 394-396, 409 *)
Definition mc_names : list (list str * mc_call) :=
  [ ([#"move"; #"move.w"; #"move.b"; #"move.l"], CMove);
    ([#"movea"; #"movea.w"; #"movea.l"], CMovea);
    ([#"ori"; #"ori.w"; #"ori.b"; #"ori.l"], CImm 0x0000 true);
    ([#"andi"; #"andi.w"; #"andi.b"; #"andi.l"], CImm 0x0200 true);
    ([#"subi"; #"subi.w"; #"subi.b"; #"subi.l"], CImm 0x0400 false);
    ([#"addi"; #"addi.w"; #"addi.b"; #"addi.l"], CImm 0x0600 false);
    ([#"eori"; #"eori.w"; #"eori.b"; #"eori.l"], CImm 0x0A00 true);
    ([#"cmpi"; #"cmpi.w"; #"cmpi.b"; #"cmpi.l"], CImm 0x0C00 false);
    ([#"jmp"], CJump 0x4EC0);
    ([#"lea"; #"lea.l"], CLea);
    ([#"bhi"; #"bls"; #"bcc"; #"bcs"; #"bne"; #"beq"; #"bvc"; #"bvs"; #"bpl"; #"bmi"; #"bge"; #"blt"; #"bgt"; #"ble";
      #"bhi.b"; #"bls.b"; #"bcc.b"; #"bcs.b"; #"bne.b"; #"beq.b"; #"bvc.b"; #"bvs.b"; #"bpl.b"; #"bmi.b"; #"bge.b"; #"blt.b"; #"bgt.b"; #"ble.b";
      #"bhi.w"; #"bls.w"; #"bcc.w"; #"bcs.w"; #"bne.w"; #"beq.w"; #"bvc.w"; #"bvs.w"; #"bpl.w"; #"bmi.w"; #"bge.w"; #"blt.w"; #"bgt.w"; #"ble.w"], CBcc);
    ([#"dbt"; #"dbf"; #"dbra"; #"dbhi"; #"dbls"; #"dbcc"; #"dbcs"; #"dbne"; #"dbeq"; #"dbvc"; #"dbvs"; #"dbpl"; #"dbmi"; #"dbge"; #"dblt"; #"dbgt"; #"dble";
      #"dbt.w"; #"dbf.w"; #"dbra.w"; #"dbhi.w"; #"dbls.w"; #"dbcc.w"; #"dbcs.w"; #"dbne.w"; #"dbeq.w"; #"dbvc.w"; #"dbvs.w"; #"dbpl.w"; #"dbmi.w"; #"dbge.w"; #"dblt.w"; #"dbgt.w"; #"dble.w"], CDbcc);
    ([#"jsr"], CJump 0x4E80) ].
(** cpu/mc68000.py:111-113, 260-413; the two static instructions have names in capitals,
    which registration ignores (assembler.py:860-864) *)
Definition mc_table : list (str * option mc_call) :=
  [ (#"rts", None); (#"nop", None) ] ++ flat_map (fun '(ns, k) => map (fun n => (n, Some k)) ns) mc_names.
(** cpu/mc68000.py:112-113 *)
Definition mc_static (n : str) : bytes := if str_eqb n #"rts" then [0x4E; 0x75] else [0x4E; 0x71].
(** cpu/mc68000.py:103-113 AssemblerMC68000 *)
Definition mc68000 (e : env) : cfg :=
  mk_cfg mc_p e (map (fun '(n, k) => (n, match k with Some k => OFun (mc_run k) | None => OStatic (mc_static n) end)) mc_table) [] [] [].
