(** Model of necroassembler/cpu/powerpc.py *)
From Verif Require Import Py Utils Tokenizer State Assembler Instr.
Local Open Scope Z_scope.

(** The decimal numerals of 0 to 31: str(n) in cpu/powerpc.py:4-5 *)
Definition numerals32 : list str :=
  [ #"0"; #"1"; #"2"; #"3"; #"4"; #"5"; #"6"; #"7"; #"8"; #"9"; #"10"; #"11"; #"12"; #"13"; #"14"; #"15";
    #"16"; #"17"; #"18"; #"19"; #"20"; #"21"; #"22"; #"23"; #"24"; #"25"; #"26"; #"27"; #"28"; #"29"; #"30"; #"31" ].
(** cpu/powerpc.py:4 GREGS *)
Definition gregs : list str := map (fun n => #"r" ++ n) numerals32.
(** cpu/powerpc.py:5 FREGS *)
Definition fregs : list str := map (fun n => #"f" ++ n) numerals32.

(** The third component of an operand in the table: one of the functions of
    cpu/powerpc.py:8-115, or one of the names bound to None in cpu/powerpc.py:118-129. *)
Inductive kind :=
| KGreg | KG0reg | KFreg | KPcrel | KBaddr | KSi | KHi | KUi | KNum | KNum0 | KSnum
| K_SGREG | K_SPREG | K_BCND | K_JBSR | K_CRF | K_CRFONLY | K_D | K_DS | K_FXM | K_ZERO | K_MBE | K_VREG.

(** cpu/powerpc.py:12-14 _greg without an assembler *)
Definition is_greg (t : str) : bool :=
  if str_eqb (lower t) #"r0" then false else str_in (lower t) gregs.
(** cpu/powerpc.py:23-25 _g0reg without an assembler *)
Definition is_g0reg (t : str) : bool :=
  if str_eqb (lower t) #"0" then true else str_in (lower t) gregs.
(** cpu/powerpc.py:32 _freg without an assembler *)
Definition is_freg (t : str) : bool := str_in (lower t) fregs.
(** cpu/powerpc.py:45, 56, 66, 76, 86, 96, 106, 116: the others without an assembler *)
Definition is_other (t : str) : bool := negb (str_in t (gregs ++ fregs)).

(** cpu/powerpc.py:1341 what instr.match is given *)
Definition kind_pattern (k : kind) : pattern :=
  match k with
  | KGreg => PFun is_greg | KG0reg => PFun is_g0reg | KFreg => PFun is_freg
  | KPcrel | KBaddr | KSi | KHi | KUi | KNum | KNum0 | KSnum => PFun is_other
  | K_SGREG | K_SPREG | K_BCND | K_JBSR | K_CRF | K_CRFONLY | K_D | K_DS | K_FXM | K_ZERO | K_MBE | K_VREG => PAny
  end.

(** cpu/powerpc.py:1352-1354 class attributes *)
Definition ppc_p : pcfg := PCfg [#"0x"] [] [] [] [] [] [] [] false 0 true.

(** cpu/powerpc.py:11, 22, 31 int(token[1:]) *)
Definition reg_number (t : str) : M Z :=
  match py_int 10 (skipn 1 t) with Some v => ret v | None => praise ValueError end.
(** cpu/powerpc.py:37-43, 50-55, 60-65, 70-75, 80-85, 90-95, 100-105, 110-115 *)
Definition ppc_value (t : str) (bits : Z * Z) (rel : Z) (filter : option (Z -> Z)) (signed : bool) : M Z :=
  parse_integer_or_label ppc_p
    (LabelData t 4 (fst bits - snd bits + 1) rel 0 1 (Some bits) filter None) signed.
(** cpu/powerpc.py:8-116 the functions with an assembler; a name bound to None is called,
    which raises TypeError *)
Definition kind_eval (k : kind) (t : str) (bits : Z * Z) : M Z :=
  match k with
  | KGreg | KFreg => reg_number t
  | KG0reg => if str_eqb t #"0" then ret 0 else reg_number t
  | KPcrel => let! s := get in ppc_value t bits (pc s) (Some (fun x => Z.shiftr x 2)) false
  | KBaddr => ppc_value t bits 0 (Some (fun x => Z.shiftr x 2)) false
  | KSi | KSnum => ppc_value t bits 0 None true
  | KHi | KUi | KNum | KNum0 => ppc_value t bits 0 None false
  | K_SGREG | K_SPREG | K_BCND | K_JBSR | K_CRF | K_CRFONLY | K_D | K_DS | K_FXM | K_ZERO | K_MBE | K_VREG =>
      praise TypeError
  end.

(** An operand of the table: position, length, kind.  cpu/powerpc.py:135 *)
Definition item : Type := Z * Z * kind.
(** cpu/powerpc.py:1344 the bits of an operand *)
Definition item_bits (i : item) : Z * Z := let '(pos, len, _) := i in (pos + len - 1, pos).
(** cpu/powerpc.py:1341 item[2] *)
Definition item_kind (i : item) : kind := snd i.

(** cpu/powerpc.py:1343-1346 the list of fields; the words are those after the name, and a
    condition that matched has as many operands as there are words *)
Fixpoint ppc_fields (c : list item) (tokens : list str) : M (list ((Z * Z) * Z)) :=
  match c, tokens with
  | [], _ => ret []
  | i :: c, t :: tokens =>
      let! v := kind_eval (item_kind i) t (item_bits i) in
      let! r := ppc_fields c tokens in
      ret ((item_bits i, v) :: r)
  | _ :: _, [] => praise IndexError
  end.

(** cpu/powerpc.py:1336-1347 __call__ *)
Fixpoint ppc_call (base : Z) (conditions : list (option (list item))) (tokens : list str) : M (option bytes) :=
  match conditions with
  | [] => ret None
  | None :: rest =>
      if Nat.eqb (length tokens) 1 then let! b := lift (pack_be32u [Some base]) in ret (Some b)
      else ppc_call base rest tokens
  | Some c :: rest =>
      if imatch tokens 1 (map (fun i => kind_pattern (item_kind i)) c) then
        let! fs := ppc_fields c (tl tokens) in
        let! v := lift (pack_bits base fs) in
        let! b := lift (pack_be32u [Some v]) in
        ret (Some b)
      else ppc_call base rest tokens
  end.

(** cpu/powerpc.py:134-1322 OPCODES_TABLE *)
Definition ppc_table : list (Z * str * option (list item)) :=
  [
    (0x38000000, #"addi", Some [(21, 5, KGreg); (16, 5, KG0reg); (0, 16, KSi)]);
    (0x38000000, #"li", Some [(21, 5, KGreg); (0, 16, KSi)]);
    (0x3c000000, #"addis", Some [(21, 5, KGreg); (16, 5, KG0reg); (0, 16, KHi)]);
    (0x3c000000, #"lis", Some [(21, 5, KGreg); (0, 16, KHi)]);
    (0x30000000, #"addic", Some [(21, 5, KGreg); (16, 5, KGreg); (0, 16, KSi)]);
    (0x34000000, #"addic.", Some [(21, 5, KGreg); (16, 5, KGreg); (0, 16, KSi)]);
    (0x7c000214, #"add", Some [(21, 5, KGreg); (16, 5, KGreg); (11, 5, KGreg)]);
    (0x7c000215, #"add.", Some [(21, 5, KGreg); (16, 5, KGreg); (11, 5, KGreg)]);
    (0x7c000614, #"addo", Some [(21, 5, KGreg); (16, 5, KGreg); (11, 5, KGreg)]);
    (0x7c000615, #"addo.", Some [(21, 5, KGreg); (16, 5, KGreg); (11, 5, KGreg)]);
    (0x7c000014, #"addc", Some [(21, 5, KGreg); (16, 5, KGreg); (11, 5, KGreg)]);
    (0x7c000015, #"addc.", Some [(21, 5, KGreg); (16, 5, KGreg); (11, 5, KGreg)]);
    (0x7c000414, #"addco", Some [(21, 5, KGreg); (16, 5, KGreg); (11, 5, KGreg)]);
    (0x7c000415, #"addco.", Some [(21, 5, KGreg); (16, 5, KGreg); (11, 5, KGreg)]);
    (0x7c000114, #"adde", Some [(21, 5, KGreg); (16, 5, KGreg); (11, 5, KGreg)]);
    (0x7c000115, #"adde.", Some [(21, 5, KGreg); (16, 5, KGreg); (11, 5, KGreg)]);
    (0x7c000514, #"addeo", Some [(21, 5, KGreg); (16, 5, KGreg); (11, 5, KGreg)]);
    (0x7c000515, #"addeo.", Some [(21, 5, KGreg); (16, 5, KGreg); (11, 5, KGreg)]);
    (0x7c0001d4, #"addme", Some [(21, 5, KGreg); (16, 5, KGreg)]);
    (0x7c0001d5, #"addme.", Some [(21, 5, KGreg); (16, 5, KGreg)]);
    (0x7c0005d4, #"addmeo", Some [(21, 5, KGreg); (16, 5, KGreg)]);
    (0x7c0005d5, #"addmeo.", Some [(21, 5, KGreg); (16, 5, KGreg)]);
    (0x7c000194, #"addze", Some [(21, 5, KGreg); (16, 5, KGreg)]);
    (0x7c000195, #"addze.", Some [(21, 5, KGreg); (16, 5, KGreg)]);
    (0x7c000594, #"addzeo", Some [(21, 5, KGreg); (16, 5, KGreg)]);
    (0x7c000595, #"addzeo.", Some [(21, 5, KGreg); (16, 5, KGreg)]);
    (0x70000000, #"andi.", Some [(16, 5, KGreg); (21, 5, KGreg); (0, 16, KUi)]);
    (0x74000000, #"andis.", Some [(16, 5, KGreg); (21, 5, KGreg); (0, 16, KUi)]);
    (0x7c000038, #"and", Some [(16, 5, KGreg); (21, 5, KGreg); (11, 5, KGreg)]);
    (0x7c000039, #"and.", Some [(16, 5, KGreg); (21, 5, KGreg); (11, 5, KGreg)]);
    (0x7c000078, #"andc", Some [(16, 5, KGreg); (21, 5, KGreg); (11, 5, KGreg)]);
    (0x7c000079, #"andc.", Some [(16, 5, KGreg); (21, 5, KGreg); (11, 5, KGreg)]);
    (0x48000000, #"b", Some [(2, 24, KPcrel)]);
    (0x48000002, #"ba", Some [(2, 24, KBaddr)]);
    (0x48000001, #"bl", Some [(2, 24, KPcrel)]);
    (0x48000003, #"bla", Some [(2, 24, KBaddr)]);
    (0x48000001, #"jbsr", Some [(0, 0, K_JBSR); (2, 24, KPcrel)]);
    (0x48000000, #"jmp", Some [(0, 0, K_JBSR); (2, 24, KPcrel)]);
    (0x40000000, #"bc", Some [(21, 5, KNum); (16, 5, KNum); (2, 14, KPcrel)]);
    (0x40000002, #"bca", Some [(21, 5, KNum); (16, 5, KNum); (2, 14, KBaddr)]);
    (0x40000001, #"bcl", Some [(21, 5, KNum); (16, 5, KNum); (2, 14, KPcrel)]);
    (0x40000003, #"bcla", Some [(21, 5, KNum); (16, 5, KNum); (2, 14, KBaddr)]);
    (0x4c000420, #"bcctr", Some [(21, 5, KNum); (16, 5, KNum)]);
    (0x4c000420, #"bcctr", Some [(21, 5, KNum); (16, 5, KNum); (11, 2, KNum)]);
    (0x4c000421, #"bcctrl", Some [(21, 5, KNum); (16, 5, KNum)]);
    (0x4c000421, #"bcctrl", Some [(21, 5, KNum); (16, 5, KNum); (11, 2, KNum)]);
    (0x4c000020, #"bclr", Some [(21, 5, KNum); (16, 5, KNum)]);
    (0x4c000020, #"bclr", Some [(21, 5, KNum); (16, 5, KNum); (11, 2, KNum)]);
    (0x4c000021, #"bclrl", Some [(21, 5, KNum); (16, 5, KNum)]);
    (0x4c000021, #"bclrl", Some [(21, 5, KNum); (16, 5, KNum); (11, 2, KNum)]);
    (0x41800000, #"bt", Some [(16, 5, K_BCND); (2, 14, KPcrel)]);
    (0x41800001, #"btl", Some [(16, 5, K_BCND); (2, 14, KPcrel)]);
    (0x40800000, #"bf", Some [(16, 5, K_BCND); (2, 14, KPcrel)]);
    (0x40800001, #"bfl", Some [(16, 5, K_BCND); (2, 14, KPcrel)]);
    (0x42000000, #"bdnz", Some [(2, 14, KPcrel)]);
    (0x42000001, #"bdnzl", Some [(2, 14, KPcrel)]);
    (0x41000000, #"bdnzt", Some [(16, 5, K_BCND); (2, 14, KPcrel)]);
    (0x41000001, #"bdnztl", Some [(16, 5, K_BCND); (2, 14, KPcrel)]);
    (0x40000000, #"bdnzf", Some [(16, 5, K_BCND); (2, 14, KPcrel)]);
    (0x40000001, #"bdnzfl", Some [(16, 5, K_BCND); (2, 14, KPcrel)]);
    (0x42400000, #"bdz", Some [(2, 14, KPcrel)]);
    (0x42400001, #"bdzl", Some [(2, 14, KPcrel)]);
    (0x41400000, #"bdzt", Some [(16, 5, K_BCND); (2, 14, KPcrel)]);
    (0x41400001, #"bdztl", Some [(16, 5, K_BCND); (2, 14, KPcrel)]);
    (0x40400000, #"bdzf", Some [(16, 5, K_BCND); (2, 14, KPcrel)]);
    (0x40400001, #"bdzfl", Some [(16, 5, K_BCND); (2, 14, KPcrel)]);
    (0x41800002, #"bta", Some [(16, 5, K_BCND); (2, 14, KBaddr)]);
    (0x41800003, #"btla", Some [(16, 5, K_BCND); (2, 14, KBaddr)]);
    (0x40800002, #"bfa", Some [(16, 5, K_BCND); (2, 14, KBaddr)]);
    (0x40800003, #"bfla", Some [(16, 5, K_BCND); (2, 14, KBaddr)]);
    (0x42000002, #"bdnza", Some [(2, 14, KBaddr)]);
    (0x42000003, #"bdnzla", Some [(2, 14, KBaddr)]);
    (0x41000002, #"bdnzta", Some [(16, 5, K_BCND); (2, 14, KBaddr)]);
    (0x41000003, #"bdnztla", Some [(16, 5, K_BCND); (2, 14, KBaddr)]);
    (0x40000002, #"bdnzfa", Some [(16, 5, K_BCND); (2, 14, KBaddr)]);
    (0x40000003, #"bdnzfla", Some [(16, 5, K_BCND); (2, 14, KBaddr)]);
    (0x42400002, #"bdza", Some [(2, 14, KBaddr)]);
    (0x42400003, #"bdzla", Some [(2, 14, KBaddr)]);
    (0x41400002, #"bdzta", Some [(16, 5, K_BCND); (2, 14, KBaddr)]);
    (0x41400003, #"bdztla", Some [(16, 5, K_BCND); (2, 14, KBaddr)]);
    (0x40400002, #"bdzfa", Some [(16, 5, K_BCND); (2, 14, KBaddr)]);
    (0x40400003, #"bdzfla", Some [(16, 5, K_BCND); (2, 14, KBaddr)]);
    (0x4e800020, #"blr", None);
    (0x4e800020, #"blr", Some [(11, 2, KNum)]);
    (0x4e800021, #"blrl", None);
    (0x4e800021, #"blrl", Some [(11, 2, KNum)]);
    (0x4d800020, #"btlr", Some [(16, 5, K_BCND)]);
    (0x4d800020, #"btlr", Some [(16, 5, K_BCND); (11, 2, KNum)]);
    (0x4d800021, #"btlrl", Some [(16, 5, K_BCND)]);
    (0x4d800021, #"btlrl", Some [(16, 5, K_BCND); (11, 2, KNum)]);
    (0x4c800020, #"bflr", Some [(16, 5, K_BCND)]);
    (0x4c800020, #"bflr", Some [(16, 5, K_BCND); (11, 2, KNum)]);
    (0x4c800021, #"bflrl", Some [(16, 5, K_BCND)]);
    (0x4c800021, #"bflrl", Some [(16, 5, K_BCND); (11, 2, KNum)]);
    (0x4e000020, #"bdnzlr", None);
    (0x4e000020, #"bdnzlr", Some [(11, 2, KNum)]);
    (0x4e000021, #"bdnzlrl", None);
    (0x4e000021, #"bdnzlrl", Some [(11, 2, KNum)]);
    (0x4d000020, #"bdnztlr", Some [(16, 5, K_BCND)]);
    (0x4d000020, #"bdnztlr", Some [(16, 5, K_BCND); (11, 2, KNum)]);
    (0x4d000021, #"bdnztlrl", Some [(16, 5, K_BCND)]);
    (0x4d000021, #"bdnztlrl", Some [(16, 5, K_BCND); (11, 2, KNum)]);
    (0x4c000020, #"bdnzflr", Some [(16, 5, K_BCND)]);
    (0x4c000020, #"bdnzflr", Some [(16, 5, K_BCND); (11, 2, KNum)]);
    (0x4c000021, #"bdnzflrl", Some [(16, 5, K_BCND)]);
    (0x4c000021, #"bdnzflrl", Some [(16, 5, K_BCND); (11, 2, KNum)]);
    (0x4e400020, #"bdzlr", None);
    (0x4e400020, #"bdzlr", Some [(11, 2, KNum)]);
    (0x4e400021, #"bdzlrl", None);
    (0x4e400021, #"bdzlrl", Some [(11, 2, KNum)]);
    (0x4d400020, #"bdztlr", Some [(16, 5, K_BCND)]);
    (0x4d400020, #"bdztlr", Some [(16, 5, K_BCND); (11, 2, KNum)]);
    (0x4d400021, #"bdztlrl", Some [(16, 5, K_BCND)]);
    (0x4d400021, #"bdztlrl", Some [(16, 5, K_BCND); (11, 2, KNum)]);
    (0x4c400020, #"bdzflr", Some [(16, 5, K_BCND)]);
    (0x4c400020, #"bdzflr", Some [(16, 5, K_BCND); (11, 2, KNum)]);
    (0x4c400021, #"bdzflrl", Some [(16, 5, K_BCND)]);
    (0x4c400021, #"bdzflrl", Some [(16, 5, K_BCND); (11, 2, KNum)]);
    (0x4c000420, #"bctr", Some [(21, 5, KNum); (16, 5, KNum)]);
    (0x4e800420, #"bctr", None);
    (0x4e800420, #"bctr", Some [(11, 2, KNum)]);
    (0x4c000421, #"bctrl", Some [(21, 5, KNum); (16, 5, KNum)]);
    (0x4e800421, #"bctrl", None);
    (0x4e800421, #"bctrl", Some [(11, 2, KNum)]);
    (0x4d800420, #"btctr", Some [(16, 5, K_BCND)]);
    (0x4d800420, #"btctr", Some [(16, 5, K_BCND); (11, 2, KNum)]);
    (0x4d800421, #"btctrl", Some [(16, 5, K_BCND)]);
    (0x4d800421, #"btctrl", Some [(16, 5, K_BCND); (11, 2, KNum)]);
    (0x4c800420, #"bfctr", Some [(16, 5, K_BCND)]);
    (0x4c800420, #"bfctr", Some [(16, 5, K_BCND); (11, 2, KNum)]);
    (0x4c800421, #"bfctrl", Some [(16, 5, K_BCND)]);
    (0x4c800421, #"bfctrl", Some [(16, 5, K_BCND); (11, 2, KNum)]);
    (0x41800000, #"blt", Some [(16, 5, K_CRF); (2, 14, KPcrel)]);
    (0x41800000, #"blt", Some [(2, 14, KPcrel)]);
    (0x41800001, #"bltl", Some [(16, 5, K_CRF); (2, 14, KPcrel)]);
    (0x41800001, #"bltl", Some [(2, 14, KPcrel)]);
    (0x40810000, #"ble", Some [(16, 5, K_CRF); (2, 14, KPcrel)]);
    (0x40810000, #"ble", Some [(2, 14, KPcrel)]);
    (0x40810001, #"blel", Some [(16, 5, K_CRF); (2, 14, KPcrel)]);
    (0x40810001, #"blel", Some [(2, 14, KPcrel)]);
    (0x41820000, #"beq", Some [(16, 5, K_CRF); (2, 14, KPcrel)]);
    (0x41820000, #"beq", Some [(2, 14, KPcrel)]);
    (0x41820001, #"beql", Some [(16, 5, K_CRF); (2, 14, KPcrel)]);
    (0x41820001, #"beql", Some [(2, 14, KPcrel)]);
    (0x40800000, #"bge", Some [(16, 5, K_CRF); (2, 14, KPcrel)]);
    (0x40800000, #"bge", Some [(2, 14, KPcrel)]);
    (0x40800001, #"bgel", Some [(16, 5, K_CRF); (2, 14, KPcrel)]);
    (0x40800001, #"bgel", Some [(2, 14, KPcrel)]);
    (0x41810000, #"bgt", Some [(16, 5, K_CRF); (2, 14, KPcrel)]);
    (0x41810000, #"bgt", Some [(2, 14, KPcrel)]);
    (0x41810001, #"bgtl", Some [(16, 5, K_CRF); (2, 14, KPcrel)]);
    (0x41810001, #"bgtl", Some [(2, 14, KPcrel)]);
    (0x40800000, #"bnl", Some [(16, 5, K_CRF); (2, 14, KPcrel)]);
    (0x40800000, #"bnl", Some [(2, 14, KPcrel)]);
    (0x40800001, #"bnll", Some [(16, 5, K_CRF); (2, 14, KPcrel)]);
    (0x40800001, #"bnll", Some [(2, 14, KPcrel)]);
    (0x40820000, #"bne", Some [(16, 5, K_CRF); (2, 14, KPcrel)]);
    (0x40820000, #"bne", Some [(2, 14, KPcrel)]);
    (0x40820001, #"bnel", Some [(16, 5, K_CRF); (2, 14, KPcrel)]);
    (0x40820001, #"bnel", Some [(2, 14, KPcrel)]);
    (0x40810000, #"bng", Some [(16, 5, K_CRF); (2, 14, KPcrel)]);
    (0x40810000, #"bng", Some [(2, 14, KPcrel)]);
    (0x40810001, #"bngl", Some [(16, 5, K_CRF); (2, 14, KPcrel)]);
    (0x40810001, #"bngl", Some [(2, 14, KPcrel)]);
    (0x41830000, #"bso", Some [(16, 5, K_CRF); (2, 14, KPcrel)]);
    (0x41830000, #"bso", Some [(2, 14, KPcrel)]);
    (0x41830001, #"bsol", Some [(16, 5, K_CRF); (2, 14, KPcrel)]);
    (0x41830001, #"bsol", Some [(2, 14, KPcrel)]);
    (0x40830000, #"bns", Some [(16, 5, K_CRF); (2, 14, KPcrel)]);
    (0x40830000, #"bns", Some [(2, 14, KPcrel)]);
    (0x40830001, #"bnsl", Some [(16, 5, K_CRF); (2, 14, KPcrel)]);
    (0x40830001, #"bnsl", Some [(2, 14, KPcrel)]);
    (0x41830000, #"bun", Some [(16, 5, K_CRF); (2, 14, KPcrel)]);
    (0x41830000, #"bun", Some [(2, 14, KPcrel)]);
    (0x41830001, #"bunl", Some [(16, 5, K_CRF); (2, 14, KPcrel)]);
    (0x41830001, #"bunl", Some [(2, 14, KPcrel)]);
    (0x40830000, #"bnu", Some [(16, 5, K_CRF); (2, 14, KPcrel)]);
    (0x40830000, #"bnu", Some [(2, 14, KPcrel)]);
    (0x40830001, #"bnul", Some [(16, 5, K_CRF); (2, 14, KPcrel)]);
    (0x40830001, #"bnul", Some [(2, 14, KPcrel)]);
    (0x41800002, #"blta", Some [(16, 5, K_CRF); (2, 14, KBaddr)]);
    (0x41800002, #"blta", Some [(2, 14, KBaddr)]);
    (0x41800003, #"bltla", Some [(16, 5, K_CRF); (2, 14, KBaddr)]);
    (0x41800003, #"bltla", Some [(2, 14, KBaddr)]);
    (0x40810002, #"blea", Some [(16, 5, K_CRF); (2, 14, KBaddr)]);
    (0x40810002, #"blea", Some [(2, 14, KBaddr)]);
    (0x40810003, #"blela", Some [(16, 5, K_CRF); (2, 14, KBaddr)]);
    (0x40810003, #"blela", Some [(2, 14, KBaddr)]);
    (0x41820002, #"beqa", Some [(16, 5, K_CRF); (2, 14, KBaddr)]);
    (0x41820002, #"beqa", Some [(2, 14, KBaddr)]);
    (0x41820003, #"beqla", Some [(16, 5, K_CRF); (2, 14, KBaddr)]);
    (0x41820003, #"beqla", Some [(2, 14, KBaddr)]);
    (0x40800002, #"bgea", Some [(16, 5, K_CRF); (2, 14, KBaddr)]);
    (0x40800002, #"bgea", Some [(2, 14, KBaddr)]);
    (0x40800003, #"bgela", Some [(16, 5, K_CRF); (2, 14, KBaddr)]);
    (0x40800003, #"bgela", Some [(2, 14, KBaddr)]);
    (0x41810002, #"bgta", Some [(16, 5, K_CRF); (2, 14, KBaddr)]);
    (0x41810002, #"bgta", Some [(2, 14, KBaddr)]);
    (0x41810003, #"bgtla", Some [(16, 5, K_CRF); (2, 14, KBaddr)]);
    (0x41810003, #"bgtla", Some [(2, 14, KBaddr)]);
    (0x40800002, #"bnla", Some [(16, 5, K_CRF); (2, 14, KBaddr)]);
    (0x40800002, #"bnla", Some [(2, 14, KBaddr)]);
    (0x40800003, #"bnlla", Some [(16, 5, K_CRF); (2, 14, KBaddr)]);
    (0x40800003, #"bnlla", Some [(2, 14, KBaddr)]);
    (0x40820002, #"bnea", Some [(16, 5, K_CRF); (2, 14, KBaddr)]);
    (0x40820002, #"bnea", Some [(2, 14, KBaddr)]);
    (0x40820003, #"bnela", Some [(16, 5, K_CRF); (2, 14, KBaddr)]);
    (0x40820003, #"bnela", Some [(2, 14, KBaddr)]);
    (0x40810002, #"bnga", Some [(16, 5, K_CRF); (2, 14, KBaddr)]);
    (0x40810002, #"bnga", Some [(2, 14, KBaddr)]);
    (0x40810003, #"bngla", Some [(16, 5, K_CRF); (2, 14, KBaddr)]);
    (0x40810003, #"bngla", Some [(2, 14, KBaddr)]);
    (0x41830002, #"bsoa", Some [(16, 5, K_CRF); (2, 14, KBaddr)]);
    (0x41830002, #"bsoa", Some [(2, 14, KBaddr)]);
    (0x41830003, #"bsola", Some [(16, 5, K_CRF); (2, 14, KBaddr)]);
    (0x41830003, #"bsola", Some [(2, 14, KBaddr)]);
    (0x40830002, #"bnsa", Some [(16, 5, K_CRF); (2, 14, KBaddr)]);
    (0x40830002, #"bnsa", Some [(2, 14, KBaddr)]);
    (0x40830003, #"bnsla", Some [(16, 5, K_CRF); (2, 14, KBaddr)]);
    (0x40830003, #"bnsla", Some [(2, 14, KBaddr)]);
    (0x41830002, #"buna", Some [(16, 5, K_CRF); (2, 14, KBaddr)]);
    (0x41830002, #"buna", Some [(2, 14, KBaddr)]);
    (0x41830003, #"bunla", Some [(16, 5, K_CRF); (2, 14, KBaddr)]);
    (0x41830003, #"bunla", Some [(2, 14, KBaddr)]);
    (0x40830002, #"bnua", Some [(16, 5, K_CRF); (2, 14, KBaddr)]);
    (0x40830002, #"bnua", Some [(2, 14, KBaddr)]);
    (0x40830003, #"bnula", Some [(16, 5, K_CRF); (2, 14, KBaddr)]);
    (0x40830003, #"bnula", Some [(2, 14, KBaddr)]);
    (0x4d800020, #"bltlr", Some [(16, 5, K_CRF)]);
    (0x4d800020, #"bltlr", Some [(16, 5, K_CRF); (11, 2, KNum)]);
    (0x4d800020, #"bltlr", None);
    (0x4d800021, #"bltlrl", Some [(16, 5, K_CRF)]);
    (0x4d800021, #"bltlrl", Some [(16, 5, K_CRF); (11, 2, KNum)]);
    (0x4d800021, #"bltlrl", None);
    (0x4c810020, #"blelr", Some [(16, 5, K_CRF)]);
    (0x4c810020, #"blelr", Some [(16, 5, K_CRF); (11, 2, KNum)]);
    (0x4c810020, #"blelr", None);
    (0x4c810021, #"blelrl", Some [(16, 5, K_CRF)]);
    (0x4c810021, #"blelrl", Some [(16, 5, K_CRF); (11, 2, KNum)]);
    (0x4c810021, #"blelrl", None);
    (0x4d820020, #"beqlr", Some [(16, 5, K_CRF)]);
    (0x4d820020, #"beqlr", Some [(16, 5, K_CRF); (11, 2, KNum)]);
    (0x4d820020, #"beqlr", None);
    (0x4d820021, #"beqlrl", Some [(16, 5, K_CRF)]);
    (0x4d820021, #"beqlrl", Some [(16, 5, K_CRF); (11, 2, KNum)]);
    (0x4d820021, #"beqlrl", None);
    (0x4c800020, #"bgelr", Some [(16, 5, K_CRF)]);
    (0x4c800020, #"bgelr", Some [(16, 5, K_CRF); (11, 2, KNum)]);
    (0x4c800020, #"bgelr", None);
    (0x4c800021, #"bgelrl", Some [(16, 5, K_CRF)]);
    (0x4c800021, #"bgelrl", Some [(16, 5, K_CRF); (11, 2, KNum)]);
    (0x4c800021, #"bgelrl", None);
    (0x4d810020, #"bgtlr", Some [(16, 5, K_CRF)]);
    (0x4d810020, #"bgtlr", Some [(16, 5, K_CRF); (11, 2, KNum)]);
    (0x4d810020, #"bgtlr", None);
    (0x4d810021, #"bgtlrl", Some [(16, 5, K_CRF)]);
    (0x4d810021, #"bgtlrl", Some [(16, 5, K_CRF); (11, 2, KNum)]);
    (0x4d810021, #"bgtlrl", None);
    (0x4c800020, #"bnllr", Some [(16, 5, K_CRF)]);
    (0x4c800020, #"bnllr", Some [(16, 5, K_CRF); (11, 2, KNum)]);
    (0x4c800020, #"bnllr", None);
    (0x4c800021, #"bnllrl", Some [(16, 5, K_CRF)]);
    (0x4c800021, #"bnllrl", Some [(16, 5, K_CRF); (11, 2, KNum)]);
    (0x4c800021, #"bnllrl", None);
    (0x4c820020, #"bnelr", Some [(16, 5, K_CRF)]);
    (0x4c820020, #"bnelr", Some [(16, 5, K_CRF); (11, 2, KNum)]);
    (0x4c820020, #"bnelr", None);
    (0x4c820021, #"bnelrl", Some [(16, 5, K_CRF)]);
    (0x4c820021, #"bnelrl", Some [(16, 5, K_CRF); (11, 2, KNum)]);
    (0x4c820021, #"bnelrl", None);
    (0x4c810020, #"bnglr", Some [(16, 5, K_CRF)]);
    (0x4c810020, #"bnglr", Some [(16, 5, K_CRF); (11, 2, KNum)]);
    (0x4c810020, #"bnglr", None);
    (0x4c810021, #"bnglrl", Some [(16, 5, K_CRF)]);
    (0x4c810021, #"bnglrl", Some [(16, 5, K_CRF); (11, 2, KNum)]);
    (0x4c810021, #"bnglrl", None);
    (0x4d830020, #"bsolr", Some [(16, 5, K_CRF)]);
    (0x4d830020, #"bsolr", Some [(16, 5, K_CRF); (11, 2, KNum)]);
    (0x4d830020, #"bsolr", None);
    (0x4d830021, #"bsolrl", Some [(16, 5, K_CRF)]);
    (0x4d830021, #"bsolrl", Some [(16, 5, K_CRF); (11, 2, KNum)]);
    (0x4d830021, #"bsolrl", None);
    (0x4c830020, #"bnslr", Some [(16, 5, K_CRF)]);
    (0x4c830020, #"bnslr", Some [(16, 5, K_CRF); (11, 2, KNum)]);
    (0x4c830020, #"bnslr", None);
    (0x4c830021, #"bnslrl", Some [(16, 5, K_CRF)]);
    (0x4c830021, #"bnslrl", Some [(16, 5, K_CRF); (11, 2, KNum)]);
    (0x4c830021, #"bnslrl", None);
    (0x4d830020, #"bunlr", Some [(16, 5, K_CRF)]);
    (0x4d830020, #"bunlr", Some [(16, 5, K_CRF); (11, 2, KNum)]);
    (0x4d830020, #"bunlr", None);
    (0x4d830021, #"bunlrl", Some [(16, 5, K_CRF)]);
    (0x4d830021, #"bunlrl", Some [(16, 5, K_CRF); (11, 2, KNum)]);
    (0x4d830021, #"bunlrl", None);
    (0x4c830020, #"bnulr", Some [(16, 5, K_CRF)]);
    (0x4c830020, #"bnulr", Some [(16, 5, K_CRF); (11, 2, KNum)]);
    (0x4c830020, #"bnulr", None);
    (0x4c830021, #"bnulrl", Some [(16, 5, K_CRF)]);
    (0x4c830021, #"bnulrl", Some [(16, 5, K_CRF); (11, 2, KNum)]);
    (0x4c830021, #"bnulrl", None);
    (0x4d800420, #"bltctr", Some [(16, 5, K_CRF)]);
    (0x4d800420, #"bltctr", Some [(16, 5, K_CRF); (11, 2, KNum)]);
    (0x4d800420, #"bltctr", None);
    (0x4d800421, #"bltctrl", Some [(16, 5, K_CRF)]);
    (0x4d800421, #"bltctrl", Some [(16, 5, K_CRF); (11, 2, KNum)]);
    (0x4d800421, #"bltctrl", None);
    (0x4c810420, #"blectr", Some [(16, 5, K_CRF)]);
    (0x4c810420, #"blectr", Some [(16, 5, K_CRF); (11, 2, KNum)]);
    (0x4c810420, #"blectr", None);
    (0x4c810421, #"blectrl", Some [(16, 5, K_CRF)]);
    (0x4c810421, #"blectrl", Some [(16, 5, K_CRF); (11, 2, KNum)]);
    (0x4c810421, #"blectrl", None);
    (0x4d820420, #"beqctr", Some [(16, 5, K_CRF)]);
    (0x4d820420, #"beqctr", Some [(16, 5, K_CRF); (11, 2, KNum)]);
    (0x4d820420, #"beqctr", None);
    (0x4d820421, #"beqctrl", Some [(16, 5, K_CRF)]);
    (0x4d820421, #"beqctrl", Some [(16, 5, K_CRF); (11, 2, KNum)]);
    (0x4d820421, #"beqctrl", None);
    (0x4c800420, #"bgectr", Some [(16, 5, K_CRF)]);
    (0x4c800420, #"bgectr", Some [(16, 5, K_CRF); (11, 2, KNum)]);
    (0x4c800420, #"bgectr", None);
    (0x4c800421, #"bgectrl", Some [(16, 5, K_CRF)]);
    (0x4c800421, #"bgectrl", Some [(16, 5, K_CRF); (11, 2, KNum)]);
    (0x4c800421, #"bgectrl", None);
    (0x4d810420, #"bgtctr", Some [(16, 5, K_CRF)]);
    (0x4d810420, #"bgtctr", Some [(16, 5, K_CRF); (11, 2, KNum)]);
    (0x4d810420, #"bgtctr", None);
    (0x4d810421, #"bgtctrl", Some [(16, 5, K_CRF)]);
    (0x4d810421, #"bgtctrl", Some [(16, 5, K_CRF); (11, 2, KNum)]);
    (0x4d810421, #"bgtctrl", None);
    (0x4c800420, #"bnlctr", Some [(16, 5, K_CRF)]);
    (0x4c800420, #"bnlctr", Some [(16, 5, K_CRF); (11, 2, KNum)]);
    (0x4c800420, #"bnlctr", None);
    (0x4c800421, #"bnlctrl", Some [(16, 5, K_CRF)]);
    (0x4c800421, #"bnlctrl", Some [(16, 5, K_CRF); (11, 2, KNum)]);
    (0x4c800421, #"bnlctrl", None);
    (0x4c820420, #"bnectr", Some [(16, 5, K_CRF)]);
    (0x4c820420, #"bnectr", Some [(16, 5, K_CRF); (11, 2, KNum)]);
    (0x4c820420, #"bnectr", None);
    (0x4c820421, #"bnectrl", Some [(16, 5, K_CRF)]);
    (0x4c820421, #"bnectrl", Some [(16, 5, K_CRF); (11, 2, KNum)]);
    (0x4c820421, #"bnectrl", None);
    (0x4c810420, #"bngctr", Some [(16, 5, K_CRF)]);
    (0x4c810420, #"bngctr", Some [(16, 5, K_CRF); (11, 2, KNum)]);
    (0x4c810420, #"bngctr", None);
    (0x4c810421, #"bngctrl", Some [(16, 5, K_CRF)]);
    (0x4c810421, #"bngctrl", Some [(16, 5, K_CRF); (11, 2, KNum)]);
    (0x4c810421, #"bngctrl", None);
    (0x4d830420, #"bsoctr", Some [(16, 5, K_CRF)]);
    (0x4d830420, #"bsoctr", Some [(16, 5, K_CRF); (11, 2, KNum)]);
    (0x4d830420, #"bsoctr", None);
    (0x4d830421, #"bsoctrl", Some [(16, 5, K_CRF)]);
    (0x4d830421, #"bsoctrl", Some [(16, 5, K_CRF); (11, 2, KNum)]);
    (0x4d830421, #"bsoctrl", None);
    (0x4c830420, #"bnsctr", Some [(16, 5, K_CRF)]);
    (0x4c830420, #"bnsctr", Some [(16, 5, K_CRF); (11, 2, KNum)]);
    (0x4c830420, #"bnsctr", None);
    (0x4c830421, #"bnsctrl", Some [(16, 5, K_CRF)]);
    (0x4c830421, #"bnsctrl", Some [(16, 5, K_CRF); (11, 2, KNum)]);
    (0x4c830421, #"bnsctrl", None);
    (0x4d830420, #"bunctr", Some [(16, 5, K_CRF)]);
    (0x4d830420, #"bunctr", Some [(16, 5, K_CRF); (11, 2, KNum)]);
    (0x4d830420, #"bunctr", None);
    (0x4d830421, #"bunctrl", Some [(16, 5, K_CRF)]);
    (0x4d830421, #"bunctrl", Some [(16, 5, K_CRF); (11, 2, KNum)]);
    (0x4d830421, #"bunctrl", None);
    (0x4c830420, #"bnuctr", Some [(16, 5, K_CRF)]);
    (0x4c830420, #"bnuctr", Some [(16, 5, K_CRF); (11, 2, KNum)]);
    (0x4c830420, #"bnuctr", None);
    (0x4c830421, #"bnuctrl", Some [(16, 5, K_CRF)]);
    (0x4c830421, #"bnuctrl", Some [(16, 5, K_CRF); (11, 2, KNum)]);
    (0x4c830421, #"bnuctrl", None);
    (0x2c000000, #"cmpi", Some [(21, 5, K_CRFONLY); (16, 5, KGreg); (0, 16, KSi)]);
    (0x2c000000, #"cmpi", Some [(21, 5, K_CRFONLY); (21, 1, KNum); (16, 5, KGreg); (0, 16, KSi)]);
    (0x2c000000, #"cmpi", Some [(23, 3, KNum); (16, 5, KGreg); (0, 16, KSi)]);
    (0x2c000000, #"cmpi", Some [(23, 3, KNum); (21, 1, KNum); (16, 5, KGreg); (0, 16, KSi)]);
    (0x2c000000, #"cmpwi", Some [(16, 5, KGreg); (0, 16, KSi)]);
    (0x2c000000, #"cmpwi", Some [(21, 5, K_CRFONLY); (16, 5, KGreg); (0, 16, KSi)]);
    (0x2c000000, #"cmpwi", Some [(23, 3, KNum); (16, 5, KGreg); (0, 16, KSi)]);
    (0x2c200000, #"cmpdi", Some [(16, 5, KGreg); (0, 16, KSi)]);
    (0x2c200000, #"cmpdi", Some [(21, 5, K_CRFONLY); (16, 5, KGreg); (0, 16, KSi)]);
    (0x2c200000, #"cmpdi", Some [(23, 3, KNum); (16, 5, KGreg); (0, 16, KSi)]);
    (0x7c000000, #"cmp", Some [(21, 5, K_CRFONLY); (16, 5, KGreg); (11, 5, KGreg)]);
    (0x7c000000, #"cmp", Some [(21, 5, K_CRFONLY); (21, 1, KNum); (16, 5, KGreg); (11, 5, KGreg)]);
    (0x7c000000, #"cmp", Some [(23, 3, KNum); (16, 5, KGreg); (11, 5, KGreg)]);
    (0x7c000000, #"cmp", Some [(23, 3, KNum); (21, 1, KNum); (16, 5, KGreg); (11, 5, KGreg)]);
    (0x7c000000, #"cmpw", Some [(16, 5, KGreg); (11, 5, KGreg)]);
    (0x7c000000, #"cmpw", Some [(21, 5, K_CRFONLY); (16, 5, KGreg); (11, 5, KGreg)]);
    (0x7c000000, #"cmpw", Some [(23, 3, KNum); (16, 5, KGreg); (11, 5, KGreg)]);
    (0x7c200000, #"cmpd", Some [(16, 5, KGreg); (11, 5, KGreg)]);
    (0x7c200000, #"cmpd", Some [(21, 5, K_CRFONLY); (16, 5, KGreg); (11, 5, KGreg)]);
    (0x7c200000, #"cmpd", Some [(23, 3, KNum); (16, 5, KGreg); (11, 5, KGreg)]);
    (0x28000000, #"cmpli", Some [(21, 5, K_CRFONLY); (16, 5, KGreg); (0, 16, KUi)]);
    (0x28000000, #"cmpli", Some [(21, 5, K_CRFONLY); (21, 1, KNum); (16, 5, KGreg); (0, 16, KUi)]);
    (0x28000000, #"cmpli", Some [(23, 3, KNum); (16, 5, KGreg); (0, 16, KUi)]);
    (0x28000000, #"cmpli", Some [(23, 3, KNum); (21, 1, KNum); (16, 5, KGreg); (0, 16, KUi)]);
    (0x28000000, #"cmplwi", Some [(16, 5, KGreg); (0, 16, KUi)]);
    (0x28000000, #"cmplwi", Some [(21, 5, K_CRFONLY); (16, 5, KGreg); (0, 16, KUi)]);
    (0x28000000, #"cmplwi", Some [(23, 3, KNum); (16, 5, KGreg); (0, 16, KUi)]);
    (0x28200000, #"cmpldi", Some [(16, 5, KGreg); (0, 16, KUi)]);
    (0x28200000, #"cmpldi", Some [(21, 5, K_CRFONLY); (16, 5, KGreg); (0, 16, KUi)]);
    (0x28200000, #"cmpldi", Some [(23, 3, KNum); (16, 5, KGreg); (0, 16, KUi)]);
    (0x7c000040, #"cmpl", Some [(21, 5, K_CRFONLY); (16, 5, KGreg); (11, 5, KGreg)]);
    (0x7c000040, #"cmpl", Some [(21, 5, K_CRFONLY); (21, 1, KNum); (16, 5, KGreg); (11, 5, KGreg)]);
    (0x7c000040, #"cmpl", Some [(23, 3, KNum); (16, 5, KGreg); (11, 5, KGreg)]);
    (0x7c000040, #"cmpl", Some [(23, 3, KNum); (21, 1, KNum); (16, 5, KGreg); (11, 5, KGreg)]);
    (0x7c000040, #"cmplw", Some [(16, 5, KGreg); (11, 5, KGreg)]);
    (0x7c000040, #"cmplw", Some [(21, 5, K_CRFONLY); (16, 5, KGreg); (11, 5, KGreg)]);
    (0x7c000040, #"cmplw", Some [(23, 3, KNum); (16, 5, KGreg); (11, 5, KGreg)]);
    (0x7c200040, #"cmpld", Some [(16, 5, KGreg); (11, 5, KGreg)]);
    (0x7c200040, #"cmpld", Some [(21, 5, K_CRFONLY); (16, 5, KGreg); (11, 5, KGreg)]);
    (0x7c200040, #"cmpld", Some [(23, 3, KNum); (16, 5, KGreg); (11, 5, KGreg)]);
    (0x7c000034, #"cntlzw", Some [(16, 5, KGreg); (21, 5, KGreg)]);
    (0x7c000035, #"cntlzw.", Some [(16, 5, KGreg); (21, 5, KGreg)]);
    (0x4c000202, #"crand", Some [(21, 5, KNum); (16, 5, KNum); (11, 5, KNum)]);
    (0x4c000102, #"crandc", Some [(21, 5, KNum); (16, 5, KNum); (11, 5, KNum)]);
    (0x4c000242, #"creqv", Some [(21, 5, KNum); (16, 5, KNum); (11, 5, KNum)]);
    (0x4c0001c2, #"crnand", Some [(21, 5, KNum); (16, 5, KNum); (11, 5, KNum)]);
    (0x4c000042, #"crnor", Some [(21, 5, KNum); (16, 5, KNum); (11, 5, KNum)]);
    (0x4c000382, #"cror", Some [(21, 5, KNum); (16, 5, KNum); (11, 5, KNum)]);
    (0x4c000342, #"crorc", Some [(21, 5, KNum); (16, 5, KNum); (11, 5, KNum)]);
    (0x4c000182, #"crxor", Some [(21, 5, KNum); (16, 5, KNum); (11, 5, KNum)]);
    (0x7c0003d6, #"divw", Some [(21, 5, KGreg); (16, 5, KGreg); (11, 5, KGreg)]);
    (0x7c0003d7, #"divw.", Some [(21, 5, KGreg); (16, 5, KGreg); (11, 5, KGreg)]);
    (0x7c0007d6, #"divwo", Some [(21, 5, KGreg); (16, 5, KGreg); (11, 5, KGreg)]);
    (0x7c0007d7, #"divwo.", Some [(21, 5, KGreg); (16, 5, KGreg); (11, 5, KGreg)]);
    (0x7c000396, #"divwu", Some [(21, 5, KGreg); (16, 5, KGreg); (11, 5, KGreg)]);
    (0x7c000397, #"divwu.", Some [(21, 5, KGreg); (16, 5, KGreg); (11, 5, KGreg)]);
    (0x7c000796, #"divwuo", Some [(21, 5, KGreg); (16, 5, KGreg); (11, 5, KGreg)]);
    (0x7c000797, #"divwuo.", Some [(21, 5, KGreg); (16, 5, KGreg); (11, 5, KGreg)]);
    (0x7c000238, #"eqv", Some [(16, 5, KGreg); (21, 5, KGreg); (11, 5, KGreg)]);
    (0x7c000239, #"eqv.", Some [(16, 5, KGreg); (21, 5, KGreg); (11, 5, KGreg)]);
    (0x7c000774, #"extsb", Some [(16, 5, KGreg); (21, 5, KGreg)]);
    (0x7c000775, #"extsb.", Some [(16, 5, KGreg); (21, 5, KGreg)]);
    (0x7c000734, #"extsh", Some [(16, 5, KGreg); (21, 5, KGreg)]);
    (0x7c000735, #"extsh.", Some [(16, 5, KGreg); (21, 5, KGreg)]);
    (0xfc00002a, #"fadd", Some [(21, 5, KFreg); (16, 5, KFreg); (11, 5, KFreg)]);
    (0xfc00002b, #"fadd.", Some [(21, 5, KFreg); (16, 5, KFreg); (11, 5, KFreg)]);
    (0xec00002a, #"fadds", Some [(21, 5, KFreg); (16, 5, KFreg); (11, 5, KFreg)]);
    (0xec00002b, #"fadds.", Some [(21, 5, KFreg); (16, 5, KFreg); (11, 5, KFreg)]);
    (0xfc000028, #"fsub", Some [(21, 5, KFreg); (16, 5, KFreg); (11, 5, KFreg)]);
    (0xfc000029, #"fsub.", Some [(21, 5, KFreg); (16, 5, KFreg); (11, 5, KFreg)]);
    (0xec000028, #"fsubs", Some [(21, 5, KFreg); (16, 5, KFreg); (11, 5, KFreg)]);
    (0xec000029, #"fsubs.", Some [(21, 5, KFreg); (16, 5, KFreg); (11, 5, KFreg)]);
    (0xfc000032, #"fmul", Some [(21, 5, KFreg); (16, 5, KFreg); (6, 5, KFreg)]);
    (0xfc000033, #"fmul.", Some [(21, 5, KFreg); (16, 5, KFreg); (6, 5, KFreg)]);
    (0xec000032, #"fmuls", Some [(21, 5, KFreg); (16, 5, KFreg); (6, 5, KFreg)]);
    (0xec000033, #"fmuls.", Some [(21, 5, KFreg); (16, 5, KFreg); (6, 5, KFreg)]);
    (0xfc000024, #"fdiv", Some [(21, 5, KFreg); (16, 5, KFreg); (11, 5, KFreg)]);
    (0xfc000025, #"fdiv.", Some [(21, 5, KFreg); (16, 5, KFreg); (11, 5, KFreg)]);
    (0xec000024, #"fdivs", Some [(21, 5, KFreg); (16, 5, KFreg); (11, 5, KFreg)]);
    (0xec000025, #"fdivs.", Some [(21, 5, KFreg); (16, 5, KFreg); (11, 5, KFreg)]);
    (0xfc00003a, #"fmadd", Some [(21, 5, KFreg); (16, 5, KFreg); (6, 5, KFreg); (11, 5, KFreg)]);
    (0xfc00003b, #"fmadd.", Some [(21, 5, KFreg); (16, 5, KFreg); (6, 5, KFreg); (11, 5, KFreg)]);
    (0xec00003a, #"fmadds", Some [(21, 5, KFreg); (16, 5, KFreg); (6, 5, KFreg); (11, 5, KFreg)]);
    (0xec00003b, #"fmadds.", Some [(21, 5, KFreg); (16, 5, KFreg); (6, 5, KFreg); (11, 5, KFreg)]);
    (0xfc000038, #"fmsub", Some [(21, 5, KFreg); (16, 5, KFreg); (6, 5, KFreg); (11, 5, KFreg)]);
    (0xfc000039, #"fmsub.", Some [(21, 5, KFreg); (16, 5, KFreg); (6, 5, KFreg); (11, 5, KFreg)]);
    (0xec000038, #"fmsubs", Some [(21, 5, KFreg); (16, 5, KFreg); (6, 5, KFreg); (11, 5, KFreg)]);
    (0xec000039, #"fmsubs.", Some [(21, 5, KFreg); (16, 5, KFreg); (6, 5, KFreg); (11, 5, KFreg)]);
    (0xfc00003e, #"fnmadd", Some [(21, 5, KFreg); (16, 5, KFreg); (6, 5, KFreg); (11, 5, KFreg)]);
    (0xfc00003f, #"fnmadd.", Some [(21, 5, KFreg); (16, 5, KFreg); (6, 5, KFreg); (11, 5, KFreg)]);
    (0xec00003e, #"fnmadds", Some [(21, 5, KFreg); (16, 5, KFreg); (6, 5, KFreg); (11, 5, KFreg)]);
    (0xec00003f, #"fnmadds.", Some [(21, 5, KFreg); (16, 5, KFreg); (6, 5, KFreg); (11, 5, KFreg)]);
    (0xfc00003c, #"fnmsub", Some [(21, 5, KFreg); (16, 5, KFreg); (6, 5, KFreg); (11, 5, KFreg)]);
    (0xfc00003d, #"fnmsub.", Some [(21, 5, KFreg); (16, 5, KFreg); (6, 5, KFreg); (11, 5, KFreg)]);
    (0xec00003c, #"fnmsubs", Some [(21, 5, KFreg); (16, 5, KFreg); (6, 5, KFreg); (11, 5, KFreg)]);
    (0xec00003d, #"fnmsubs.", Some [(21, 5, KFreg); (16, 5, KFreg); (6, 5, KFreg); (11, 5, KFreg)]);
    (0xfc000090, #"fmr", Some [(21, 5, KFreg); (11, 5, KFreg)]);
    (0xfc000091, #"fmr.", Some [(21, 5, KFreg); (11, 5, KFreg)]);
    (0xfc000210, #"fabs", Some [(21, 5, KFreg); (11, 5, KFreg)]);
    (0xfc000211, #"fabs.", Some [(21, 5, KFreg); (11, 5, KFreg)]);
    (0xfc000050, #"fneg", Some [(21, 5, KFreg); (11, 5, KFreg)]);
    (0xfc000051, #"fneg.", Some [(21, 5, KFreg); (11, 5, KFreg)]);
    (0xfc000110, #"fnabs", Some [(21, 5, KFreg); (11, 5, KFreg)]);
    (0xfc000111, #"fnabs.", Some [(21, 5, KFreg); (11, 5, KFreg)]);
    (0xec000030, #"fres", Some [(21, 5, KFreg); (11, 5, KFreg)]);
    (0xec000031, #"fres.", Some [(21, 5, KFreg); (11, 5, KFreg)]);
    (0xfc000018, #"frsp", Some [(21, 5, KFreg); (11, 5, KFreg)]);
    (0xfc000019, #"frsp.", Some [(21, 5, KFreg); (11, 5, KFreg)]);
    (0xfc000034, #"frsqrte", Some [(21, 5, KFreg); (11, 5, KFreg)]);
    (0xfc000035, #"frsqrte.", Some [(21, 5, KFreg); (11, 5, KFreg)]);
    (0xfc00002e, #"fsel", Some [(21, 5, KFreg); (16, 5, KFreg); (6, 5, KFreg); (11, 5, KFreg)]);
    (0xfc00002f, #"fsel.", Some [(21, 5, KFreg); (16, 5, KFreg); (6, 5, KFreg); (11, 5, KFreg)]);
    (0xfc00002c, #"fsqrt", Some [(21, 5, KFreg); (11, 5, KFreg)]);
    (0xfc00002d, #"fsqrt.", Some [(21, 5, KFreg); (11, 5, KFreg)]);
    (0xec00002c, #"fsqrts", Some [(21, 5, KFreg); (11, 5, KFreg)]);
    (0xec00002d, #"fsqrts.", Some [(21, 5, KFreg); (11, 5, KFreg)]);
    (0xfc00001c, #"fctiw", Some [(21, 5, KFreg); (11, 5, KFreg)]);
    (0xfc00001d, #"fctiw.", Some [(21, 5, KFreg); (11, 5, KFreg)]);
    (0xfc00001e, #"fctiwz", Some [(21, 5, KFreg); (11, 5, KFreg)]);
    (0xfc00001f, #"fctiwz.", Some [(21, 5, KFreg); (11, 5, KFreg)]);
    (0xfc000000, #"fcmpu", Some [(21, 5, K_CRFONLY); (16, 5, KFreg); (11, 5, KFreg)]);
    (0xfc000000, #"fcmpu", Some [(23, 3, KNum); (16, 5, KFreg); (11, 5, KFreg)]);
    (0xfc000040, #"fcmpo", Some [(21, 5, K_CRFONLY); (16, 5, KFreg); (11, 5, KFreg)]);
    (0xfc000040, #"fcmpo", Some [(23, 3, KNum); (16, 5, KFreg); (11, 5, KFreg)]);
    (0xfc00048e, #"mffs", Some [(21, 5, KFreg)]);
    (0xfc00048f, #"mffs.", Some [(21, 5, KFreg)]);
    (0xfc000080, #"mcrfs", Some [(21, 5, K_CRFONLY); (18, 5, KNum)]);
    (0xfc000080, #"mcrfs", Some [(23, 3, KNum); (18, 5, KNum)]);
    (0xfc00010c, #"mtfsfi", Some [(23, 3, KNum); (12, 4, KNum)]);
    (0xfc00010d, #"mtfsfi.", Some [(23, 3, KNum); (12, 4, KNum)]);
    (0xfc00058e, #"mtfsf", Some [(17, 8, KNum); (11, 5, KFreg)]);
    (0xfc00058f, #"mtfsf.", Some [(17, 8, KNum); (11, 5, KFreg)]);
    (0xfc00008c, #"mtfsb0", Some [(21, 5, KNum)]);
    (0xfc00008d, #"mtfsb0.", Some [(21, 5, KNum)]);
    (0xfc00004c, #"mtfsb1", Some [(21, 5, KNum)]);
    (0xfc00004d, #"mtfsb1.", Some [(21, 5, KNum)]);
    (0x88000000, #"lbz", Some [(21, 5, KGreg); (0, 16, K_D); (16, 5, KG0reg)]);
    (0x7c0000ae, #"lbzx", Some [(21, 5, KGreg); (16, 5, KG0reg); (11, 5, KGreg)]);
    (0x8c000000, #"lbzu", Some [(21, 5, KGreg); (0, 16, K_D); (16, 5, KG0reg)]);
    (0x7c0000ee, #"lbzux", Some [(21, 5, KGreg); (16, 5, KGreg); (11, 5, KGreg)]);
    (0xa0000000, #"lhz", Some [(21, 5, KGreg); (0, 16, K_D); (16, 5, KG0reg)]);
    (0x7c00022e, #"lhzx", Some [(21, 5, KGreg); (16, 5, KG0reg); (11, 5, KGreg)]);
    (0xa4000000, #"lhzu", Some [(21, 5, KGreg); (0, 16, K_D); (16, 5, KG0reg)]);
    (0x7c00026e, #"lhzux", Some [(21, 5, KGreg); (16, 5, KGreg); (11, 5, KGreg)]);
    (0xa8000000, #"lha", Some [(21, 5, KGreg); (0, 16, K_D); (16, 5, KG0reg)]);
    (0x7c0002ae, #"lhax", Some [(21, 5, KGreg); (16, 5, KG0reg); (11, 5, KGreg)]);
    (0xac000000, #"lhau", Some [(21, 5, KGreg); (0, 16, K_D); (16, 5, KGreg)]);
    (0x7c0002ee, #"lhaux", Some [(21, 5, KGreg); (16, 5, KGreg); (11, 5, KGreg)]);
    (0x80000000, #"lwz", Some [(21, 5, KGreg); (0, 16, K_D); (16, 5, KG0reg)]);
    (0x7c00002e, #"lwzx", Some [(21, 5, KGreg); (16, 5, KG0reg); (11, 5, KGreg)]);
    (0x84000000, #"lwzu", Some [(21, 5, KGreg); (0, 16, K_D); (16, 5, KGreg)]);
    (0x7c00006e, #"lwzux", Some [(21, 5, KGreg); (16, 5, KGreg); (11, 5, KGreg)]);
    (0xb8000000, #"lmw", Some [(21, 5, KGreg); (0, 16, K_D); (16, 5, KG0reg)]);
    (0xbc000000, #"stmw", Some [(21, 5, KGreg); (0, 16, K_D); (16, 5, KG0reg)]);
    (0x7c00062c, #"lhbrx", Some [(21, 5, KGreg); (16, 5, KG0reg); (11, 5, KGreg)]);
    (0x7c00042c, #"lwbrx", Some [(21, 5, KGreg); (16, 5, KG0reg); (11, 5, KGreg)]);
    (0x7c00042a, #"lswx", Some [(21, 5, KGreg); (16, 5, KG0reg); (11, 5, KGreg)]);
    (0x7c000028, #"lwarx", Some [(21, 5, KGreg); (16, 5, KG0reg); (11, 5, KGreg)]);
    (0x7c00022a, #"lscbx", Some [(21, 5, KGreg); (16, 5, KG0reg); (11, 5, KGreg)]);
    (0x7c00022b, #"lscbx.", Some [(21, 5, KGreg); (16, 5, KG0reg); (11, 5, KGreg)]);
    (0x7c0004aa, #"lswi", Some [(21, 5, KGreg); (16, 5, KG0reg); (11, 5, KNum0)]);
    (0xc0000000, #"lfs", Some [(21, 5, KFreg); (0, 16, K_D); (16, 5, KG0reg)]);
    (0xc4000000, #"lfsu", Some [(21, 5, KFreg); (0, 16, K_D); (16, 5, KGreg)]);
    (0x7c00042e, #"lfsx", Some [(21, 5, KFreg); (16, 5, KG0reg); (11, 5, KGreg)]);
    (0x7c00046e, #"lfsux", Some [(21, 5, KFreg); (16, 5, KGreg); (11, 5, KGreg)]);
    (0xc8000000, #"lfd", Some [(21, 5, KFreg); (0, 16, K_D); (16, 5, KG0reg)]);
    (0xcc000000, #"lfdu", Some [(21, 5, KFreg); (0, 16, K_D); (16, 5, KGreg)]);
    (0x7c0004ae, #"lfdx", Some [(21, 5, KFreg); (16, 5, KG0reg); (11, 5, KGreg)]);
    (0x7c0004ee, #"lfdux", Some [(21, 5, KFreg); (16, 5, KGreg); (11, 5, KGreg)]);
    (0x38000000, #"la", Some [(21, 5, KGreg); (0, 16, K_D); (16, 5, KG0reg)]);
    (0x4c000000, #"mcrf", Some [(21, 5, K_CRFONLY); (16, 5, K_CRFONLY)]);
    (0x4c000000, #"mcrf", Some [(23, 3, KNum); (18, 3, KNum)]);
    (0x7c0002a6, #"mfspr", Some [(21, 5, KGreg); (11, 10, K_SPREG)]);
    (0x7c0003a6, #"mtspr", Some [(11, 10, K_SPREG); (21, 5, KGreg)]);
    (0x7c000120, #"mtcrf", Some [(12, 8, K_FXM); (21, 5, KGreg)]);
    (0x7c000120, #"mtocrf", Some [(12, 8, K_FXM); (21, 5, KGreg)]);
    (0x7c000400, #"mcrxr", Some [(21, 5, K_CRFONLY)]);
    (0x7c000400, #"mcrxr", Some [(23, 3, KNum)]);
    (0x7c000026, #"mfcr", Some [(21, 5, KGreg)]);
    (0x7c100026, #"mfcr", Some [(21, 5, KGreg); (12, 8, K_FXM)]);
    (0x7c100026, #"mfocrf", Some [(21, 5, KGreg); (12, 8, K_FXM)]);
    (0x7c0102a6, #"mfxer", Some [(21, 5, KGreg)]);
    (0x7c0802a6, #"mflr", Some [(21, 5, KGreg)]);
    (0x7c0902a6, #"mfctr", Some [(21, 5, KGreg)]);
    (0x7c0103a6, #"mtxer", Some [(21, 5, KGreg)]);
    (0x7c0803a6, #"mtlr", Some [(21, 5, KGreg)]);
    (0x7c0903a6, #"mtctr", Some [(21, 5, KGreg)]);
    (0x7c0002a6, #"mfmq", Some [(21, 5, KGreg)]);
    (0x7c0502a6, #"mfrtcl", Some [(21, 5, KGreg)]);
    (0x7c0402a6, #"mfrtcu", Some [(21, 5, KGreg)]);
    (0x7c0003a6, #"mtmq", Some [(21, 5, KGreg)]);
    (0x7c1503a6, #"mtrtcl", Some [(21, 5, KGreg)]);
    (0x7c1403a6, #"mtrtcu", Some [(21, 5, KGreg)]);
    (0x7c0001d6, #"mull", Some [(21, 5, KGreg); (16, 5, KGreg); (11, 5, KGreg)]);
    (0x7c0001d7, #"mull.", Some [(21, 5, KGreg); (16, 5, KGreg); (11, 5, KGreg)]);
    (0x7c0005d6, #"mullo", Some [(21, 5, KGreg); (16, 5, KGreg); (11, 5, KGreg)]);
    (0x7c0005d7, #"mullo.", Some [(21, 5, KGreg); (16, 5, KGreg); (11, 5, KGreg)]);
    (0x7c0001d6, #"mullw", Some [(21, 5, KGreg); (16, 5, KGreg); (11, 5, KGreg)]);
    (0x7c0001d7, #"mullw.", Some [(21, 5, KGreg); (16, 5, KGreg); (11, 5, KGreg)]);
    (0x7c0005d6, #"mullwo", Some [(21, 5, KGreg); (16, 5, KGreg); (11, 5, KGreg)]);
    (0x7c0005d7, #"mullwo.", Some [(21, 5, KGreg); (16, 5, KGreg); (11, 5, KGreg)]);
    (0x7c000096, #"mulwd", Some [(21, 5, KGreg); (16, 5, KGreg); (11, 5, KGreg)]);
    (0x7c000097, #"mulwd.", Some [(21, 5, KGreg); (16, 5, KGreg); (11, 5, KGreg)]);
    (0x7c000096, #"mulhw", Some [(21, 5, KGreg); (16, 5, KGreg); (11, 5, KGreg)]);
    (0x7c000097, #"mulhw.", Some [(21, 5, KGreg); (16, 5, KGreg); (11, 5, KGreg)]);
    (0x7c000016, #"mulhwu", Some [(21, 5, KGreg); (16, 5, KGreg); (11, 5, KGreg)]);
    (0x7c000017, #"mulhwu.", Some [(21, 5, KGreg); (16, 5, KGreg); (11, 5, KGreg)]);
    (0x7c0003b8, #"nand", Some [(16, 5, KGreg); (21, 5, KGreg); (11, 5, KGreg)]);
    (0x7c0003b9, #"nand.", Some [(16, 5, KGreg); (21, 5, KGreg); (11, 5, KGreg)]);
    (0x7c0000d0, #"neg", Some [(21, 5, KGreg); (16, 5, KGreg)]);
    (0x7c0000d1, #"neg.", Some [(21, 5, KGreg); (16, 5, KGreg)]);
    (0x7c0004d0, #"nego", Some [(21, 5, KGreg); (16, 5, KGreg)]);
    (0x7c0004d1, #"nego.", Some [(21, 5, KGreg); (16, 5, KGreg)]);
    (0x7c0000f8, #"nor", Some [(16, 5, KGreg); (21, 5, KGreg); (11, 5, KGreg)]);
    (0x7c0000f9, #"nor.", Some [(16, 5, KGreg); (21, 5, KGreg); (11, 5, KGreg)]);
    (0x60000000, #"nop", None);
    (0x60000000, #"ori", Some [(16, 5, KGreg); (21, 5, KGreg); (0, 16, KUi)]);
    (0x60000000, #"ori", Some [(16, 5, K_ZERO); (21, 5, K_ZERO); (0, 16, K_ZERO)]);
    (0x64000000, #"oris", Some [(16, 5, KGreg); (21, 5, KGreg); (0, 16, KUi)]);
    (0x7c000378, #"or", Some [(16, 5, KGreg); (21, 5, KGreg); (11, 5, KGreg)]);
    (0x7c000379, #"or.", Some [(16, 5, KGreg); (21, 5, KGreg); (11, 5, KGreg)]);
    (0x7c000338, #"orc", Some [(16, 5, KGreg); (21, 5, KGreg); (11, 5, KGreg)]);
    (0x7c000339, #"orc.", Some [(16, 5, KGreg); (21, 5, KGreg); (11, 5, KGreg)]);
    (0x54000000, #"rlwinm", Some [(16, 5, KGreg); (21, 5, KGreg); (11, 5, KNum0); (6, 5, K_MBE); (1, 5, K_MBE)]);
    (0x54000001, #"rlwinm.", Some [(16, 5, KGreg); (21, 5, KGreg); (11, 5, KNum0); (6, 5, K_MBE); (1, 5, K_MBE)]);
    (0x5c000000, #"rlwnm", Some [(16, 5, KGreg); (21, 5, KGreg); (11, 5, KGreg); (6, 5, K_MBE); (1, 5, K_MBE)]);
    (0x5c000001, #"rlwnm.", Some [(16, 5, KGreg); (21, 5, KGreg); (11, 5, KGreg); (6, 5, K_MBE); (1, 5, K_MBE)]);
    (0x50000000, #"rlwimi", Some [(16, 5, KGreg); (21, 5, KGreg); (11, 5, KNum0); (6, 5, K_MBE); (1, 5, K_MBE)]);
    (0x50000001, #"rlwimi.", Some [(16, 5, KGreg); (21, 5, KGreg); (11, 5, KNum0); (6, 5, K_MBE); (1, 5, K_MBE)]);
    (0x44000002, #"sc", None);
    (0x7c000030, #"slw", Some [(16, 5, KGreg); (21, 5, KGreg); (11, 5, KGreg)]);
    (0x7c000031, #"slw.", Some [(16, 5, KGreg); (21, 5, KGreg); (11, 5, KGreg)]);
    (0x7c000430, #"srw", Some [(16, 5, KGreg); (21, 5, KGreg); (11, 5, KGreg)]);
    (0x7c000431, #"srw.", Some [(16, 5, KGreg); (21, 5, KGreg); (11, 5, KGreg)]);
    (0x7c000670, #"srawi", Some [(16, 5, KGreg); (21, 5, KGreg); (11, 5, KNum)]);
    (0x7c000671, #"srawi.", Some [(16, 5, KGreg); (21, 5, KGreg); (11, 5, KNum)]);
    (0x7c000630, #"sraw", Some [(16, 5, KGreg); (21, 5, KGreg); (11, 5, KGreg)]);
    (0x7c000631, #"sraw.", Some [(16, 5, KGreg); (21, 5, KGreg); (11, 5, KGreg)]);
    (0x98000000, #"stb", Some [(21, 5, KGreg); (0, 16, K_D); (16, 5, KG0reg)]);
    (0x9c000000, #"stbu", Some [(21, 5, KGreg); (0, 16, K_D); (16, 5, KGreg)]);
    (0x7c0001ae, #"stbx", Some [(21, 5, KGreg); (16, 5, KG0reg); (11, 5, KGreg)]);
    (0x7c0001ee, #"stbux", Some [(21, 5, KGreg); (16, 5, KGreg); (11, 5, KGreg)]);
    (0xb0000000, #"sth", Some [(21, 5, KGreg); (0, 16, K_D); (16, 5, KG0reg)]);
    (0xb4000000, #"sthu", Some [(21, 5, KGreg); (0, 16, K_D); (16, 5, KGreg)]);
    (0x7c00032e, #"sthx", Some [(21, 5, KGreg); (16, 5, KG0reg); (11, 5, KGreg)]);
    (0x7c00036e, #"sthux", Some [(21, 5, KGreg); (16, 5, KGreg); (11, 5, KGreg)]);
    (0x90000000, #"stw", Some [(21, 5, KGreg); (0, 16, K_D); (16, 5, KG0reg)]);
    (0x94000000, #"stwu", Some [(21, 5, KGreg); (0, 16, K_D); (16, 5, KGreg)]);
    (0x7c00012e, #"stwx", Some [(21, 5, KGreg); (16, 5, KG0reg); (11, 5, KGreg)]);
    (0x7c00016e, #"stwux", Some [(21, 5, KGreg); (16, 5, KGreg); (11, 5, KGreg)]);
    (0x7c00072c, #"sthbrx", Some [(21, 5, KGreg); (16, 5, KG0reg); (11, 5, KGreg)]);
    (0x7c00052c, #"stwbrx", Some [(21, 5, KGreg); (16, 5, KG0reg); (11, 5, KGreg)]);
    (0x7c00052a, #"stswx", Some [(21, 5, KGreg); (16, 5, KG0reg); (11, 5, KGreg)]);
    (0x7c00012d, #"stwcx.", Some [(21, 5, KGreg); (16, 5, KG0reg); (11, 5, KGreg)]);
    (0x7c0005aa, #"stswi", Some [(21, 5, KGreg); (16, 5, KG0reg); (11, 5, KNum0)]);
    (0x7c0007ae, #"stfiwx", Some [(21, 5, KFreg); (16, 5, KG0reg); (11, 5, KGreg)]);
    (0xd0000000, #"stfs", Some [(21, 5, KFreg); (0, 16, K_D); (16, 5, KG0reg)]);
    (0xd4000000, #"stfsu", Some [(21, 5, KFreg); (0, 16, K_D); (16, 5, KGreg)]);
    (0x7c00052e, #"stfsx", Some [(21, 5, KFreg); (16, 5, KG0reg); (11, 5, KGreg)]);
    (0x7c00056e, #"stfsux", Some [(21, 5, KFreg); (16, 5, KGreg); (11, 5, KGreg)]);
    (0xd8000000, #"stfd", Some [(21, 5, KFreg); (0, 16, K_D); (16, 5, KG0reg)]);
    (0xdc000000, #"stfdu", Some [(21, 5, KFreg); (0, 16, K_D); (16, 5, KGreg)]);
    (0x7c0005ae, #"stfdx", Some [(21, 5, KFreg); (16, 5, KG0reg); (11, 5, KGreg)]);
    (0x7c0005ee, #"stfdux", Some [(21, 5, KFreg); (16, 5, KGreg); (11, 5, KGreg)]);
    (0x20000000, #"subfic", Some [(21, 5, KGreg); (16, 5, KGreg); (0, 16, KSi)]);
    (0x7c000050, #"sub", Some [(21, 5, KGreg); (11, 5, KGreg); (16, 5, KGreg)]);
    (0x7c000051, #"sub.", Some [(21, 5, KGreg); (11, 5, KGreg); (16, 5, KGreg)]);
    (0x7c000450, #"subo", Some [(21, 5, KGreg); (11, 5, KGreg); (16, 5, KGreg)]);
    (0x7c000451, #"subo.", Some [(21, 5, KGreg); (11, 5, KGreg); (16, 5, KGreg)]);
    (0x7c000050, #"subf", Some [(21, 5, KGreg); (16, 5, KGreg); (11, 5, KGreg)]);
    (0x7c000051, #"subf.", Some [(21, 5, KGreg); (16, 5, KGreg); (11, 5, KGreg)]);
    (0x7c000450, #"subfo", Some [(21, 5, KGreg); (16, 5, KGreg); (11, 5, KGreg)]);
    (0x7c000451, #"subfo.", Some [(21, 5, KGreg); (16, 5, KGreg); (11, 5, KGreg)]);
    (0x7c000010, #"subc", Some [(21, 5, KGreg); (11, 5, KGreg); (16, 5, KGreg)]);
    (0x7c000011, #"subc.", Some [(21, 5, KGreg); (11, 5, KGreg); (16, 5, KGreg)]);
    (0x7c000410, #"subco", Some [(21, 5, KGreg); (11, 5, KGreg); (16, 5, KGreg)]);
    (0x7c000411, #"subco.", Some [(21, 5, KGreg); (11, 5, KGreg); (16, 5, KGreg)]);
    (0x7c000010, #"subfc", Some [(21, 5, KGreg); (16, 5, KGreg); (11, 5, KGreg)]);
    (0x7c000011, #"subfc.", Some [(21, 5, KGreg); (16, 5, KGreg); (11, 5, KGreg)]);
    (0x7c000410, #"subfco", Some [(21, 5, KGreg); (16, 5, KGreg); (11, 5, KGreg)]);
    (0x7c000411, #"subfco.", Some [(21, 5, KGreg); (16, 5, KGreg); (11, 5, KGreg)]);
    (0x7c000110, #"subfe", Some [(21, 5, KGreg); (16, 5, KGreg); (11, 5, KGreg)]);
    (0x7c000111, #"subfe.", Some [(21, 5, KGreg); (16, 5, KGreg); (11, 5, KGreg)]);
    (0x7c000510, #"subfeo", Some [(21, 5, KGreg); (16, 5, KGreg); (11, 5, KGreg)]);
    (0x7c000511, #"subfeo.", Some [(21, 5, KGreg); (16, 5, KGreg); (11, 5, KGreg)]);
    (0x7c0001d0, #"subfme", Some [(21, 5, KGreg); (16, 5, KGreg)]);
    (0x7c0001d1, #"subfme.", Some [(21, 5, KGreg); (16, 5, KGreg)]);
    (0x7c0005d0, #"subfmeo", Some [(21, 5, KGreg); (16, 5, KGreg)]);
    (0x7c0005d1, #"subfmeo.", Some [(21, 5, KGreg); (16, 5, KGreg)]);
    (0x7c000190, #"subfze", Some [(21, 5, KGreg); (16, 5, KGreg)]);
    (0x7c000191, #"subfze.", Some [(21, 5, KGreg); (16, 5, KGreg)]);
    (0x7c000590, #"subfzeo", Some [(21, 5, KGreg); (16, 5, KGreg)]);
    (0x7c000591, #"subfzeo.", Some [(21, 5, KGreg); (16, 5, KGreg)]);
    (0x7c0004ac, #"sync", None);
    (0x7c0004ac, #"sync", Some [(21, 2, KNum)]);
    (0x7c2004ac, #"lwsync", None);
    (0x7c4004ac, #"ptesync", None);
    (0x0c000000, #"twi", Some [(21, 5, KNum); (16, 5, KGreg); (0, 16, KSi)]);
    (0x0e000000, #"twlti", Some [(16, 5, KGreg); (0, 16, KSi)]);
    (0x0e800000, #"twlei", Some [(16, 5, KGreg); (0, 16, KSi)]);
    (0x0c800000, #"tweqi", Some [(16, 5, KGreg); (0, 16, KSi)]);
    (0x0d800000, #"twgei", Some [(16, 5, KGreg); (0, 16, KSi)]);
    (0x0d000000, #"twgti", Some [(16, 5, KGreg); (0, 16, KSi)]);
    (0x0d800000, #"twnli", Some [(16, 5, KGreg); (0, 16, KSi)]);
    (0x0f000000, #"twnei", Some [(16, 5, KGreg); (0, 16, KSi)]);
    (0x0e800000, #"twngi", Some [(16, 5, KGreg); (0, 16, KSi)]);
    (0x0c400000, #"twllti", Some [(16, 5, KGreg); (0, 16, KSi)]);
    (0x0cc00000, #"twllei", Some [(16, 5, KGreg); (0, 16, KSi)]);
    (0x0ca00000, #"twlgei", Some [(16, 5, KGreg); (0, 16, KSi)]);
    (0x0c200000, #"twlgti", Some [(16, 5, KGreg); (0, 16, KSi)]);
    (0x0ca00000, #"twlnli", Some [(16, 5, KGreg); (0, 16, KSi)]);
    (0x0cc00000, #"twlngi", Some [(16, 5, KGreg); (0, 16, KSi)]);
    (0x7c000008, #"tw", Some [(21, 5, KNum); (16, 5, KGreg); (11, 5, KGreg)]);
    (0x7c000008, #"tw", Some [(21, 5, KNum); (16, 5, K_ZERO); (11, 5, K_ZERO)]);
    (0x7e000008, #"twlt", Some [(16, 5, KGreg); (11, 5, KGreg)]);
    (0x7e800008, #"twle", Some [(16, 5, KGreg); (11, 5, KGreg)]);
    (0x7c800008, #"tweq", Some [(16, 5, KGreg); (11, 5, KGreg)]);
    (0x7d800008, #"twge", Some [(16, 5, KGreg); (11, 5, KGreg)]);
    (0x7d000008, #"twgt", Some [(16, 5, KGreg); (11, 5, KGreg)]);
    (0x7d800008, #"twnl", Some [(16, 5, KGreg); (11, 5, KGreg)]);
    (0x7f000008, #"twne", Some [(16, 5, KGreg); (11, 5, KGreg)]);
    (0x7e800008, #"twng", Some [(16, 5, KGreg); (11, 5, KGreg)]);
    (0x7c400008, #"twllt", Some [(16, 5, KGreg); (11, 5, KGreg)]);
    (0x7cc00008, #"twlle", Some [(16, 5, KGreg); (11, 5, KGreg)]);
    (0x7ca00008, #"twlge", Some [(16, 5, KGreg); (11, 5, KGreg)]);
    (0x7c200008, #"twlgt", Some [(16, 5, KGreg); (11, 5, KGreg)]);
    (0x7ca00008, #"twlnl", Some [(16, 5, KGreg); (11, 5, KGreg)]);
    (0x7cc00008, #"twlng", Some [(16, 5, KGreg); (11, 5, KGreg)]);
    (0x7fe00008, #"trap", None);
    (0x68000000, #"xori", Some [(16, 5, KGreg); (21, 5, KGreg); (0, 16, KUi)]);
    (0x6c000000, #"xoris", Some [(16, 5, KGreg); (21, 5, KGreg); (0, 16, KUi)]);
    (0x7c000278, #"xor", Some [(16, 5, KGreg); (21, 5, KGreg); (11, 5, KGreg)]);
    (0x7c000279, #"xor.", Some [(16, 5, KGreg); (21, 5, KGreg); (11, 5, KGreg)]);
    (0x7c0007ac, #"icbi", Some [(16, 5, KG0reg); (11, 5, KGreg)]);
    (0x4c00012c, #"isync", None);
    (0x7c00022c, #"dcbt", Some [(16, 5, KG0reg); (11, 5, KGreg)]);
    (0x7c00022c, #"dcbt", Some [(16, 5, KG0reg); (11, 5, KGreg); (21, 4, KNum)]);
    (0x7c0001ec, #"dcbtst", Some [(16, 5, KG0reg); (11, 5, KGreg)]);
    (0x7c0007ec, #"dcbz", Some [(16, 5, KG0reg); (11, 5, KGreg)]);
    (0x7c2007ec, #"dcbzl", Some [(16, 5, KG0reg); (11, 5, KGreg)]);
    (0x7c00006c, #"dcbst", Some [(16, 5, KG0reg); (11, 5, KGreg)]);
    (0x7c0000ac, #"dcbf", Some [(16, 5, KG0reg); (11, 5, KGreg)]);
    (0x7c00026c, #"eciwx", Some [(21, 5, KGreg); (16, 5, KG0reg); (11, 5, KGreg)]);
    (0x7c00036c, #"ecowx", Some [(21, 5, KGreg); (16, 5, KG0reg); (11, 5, KGreg)]);
    (0x7c0006ac, #"eieio", None);
    (0x4c000064, #"rfi", None);
    (0x7c000124, #"mtmsr", Some [(21, 5, KGreg)]);
    (0x7c0000a6, #"mfmsr", Some [(21, 5, KGreg)]);
    (0x7c0005ec, #"dcba", Some [(16, 5, KG0reg); (11, 5, KGreg)]);
    (0x7c0003ac, #"dcbi", Some [(16, 5, KG0reg); (11, 5, KGreg)]);
    (0x7c0001a4, #"mtsr", Some [(16, 4, K_SGREG); (21, 5, KGreg)]);
    (0x7c0004a6, #"mfsr", Some [(21, 5, KGreg); (16, 4, K_SGREG)]);
    (0x7c0001e4, #"mtsrin", Some [(21, 5, KGreg); (11, 5, KGreg)]);
    (0x7c000526, #"mfsrin", Some [(21, 5, KGreg); (11, 5, KGreg)]);
    (0x7c0002e4, #"tlbia", None);
    (0x7c00046c, #"tlbsync", None);
    (0x7c1c43a6, #"mttbl", Some [(21, 5, KGreg)]);
    (0x7c1d43a6, #"mttbu", Some [(21, 5, KGreg)]);
    (0x7c0002e6, #"mftb", Some [(21, 5, KGreg); (11, 10, K_SPREG)]);
    (0x7c0c42e6, #"mftb", Some [(21, 5, KGreg)]);
    (0x7c0d42e6, #"mftbu", Some [(21, 5, KGreg)]);
    (0x00000200, #"attn", Some [(11, 15, KNum)]);
    (0x24000000, #"dozi", Some [(21, 5, KGreg); (16, 5, KGreg); (0, 16, KSi)]);
    (0x7c000210, #"doz", Some [(21, 5, KGreg); (16, 5, KGreg); (11, 5, KGreg)]);
    (0x7c000211, #"doz.", Some [(21, 5, KGreg); (16, 5, KGreg); (11, 5, KGreg)]);
    (0x7c000610, #"dozo", Some [(21, 5, KGreg); (16, 5, KGreg); (11, 5, KGreg)]);
    (0x7c000611, #"dozo.", Some [(21, 5, KGreg); (16, 5, KGreg); (11, 5, KGreg)]);
    (0x7c0002d0, #"abs", Some [(21, 5, KGreg); (16, 5, KGreg)]);
    (0x7c0002d1, #"abs.", Some [(21, 5, KGreg); (16, 5, KGreg)]);
    (0x7c0006d0, #"abso", Some [(21, 5, KGreg); (16, 5, KGreg)]);
    (0x7c0006d1, #"abso.", Some [(21, 5, KGreg); (16, 5, KGreg)]);
    (0x7c0003d0, #"nabs", Some [(21, 5, KGreg); (16, 5, KGreg)]);
    (0x7c0003d1, #"nabs.", Some [(21, 5, KGreg); (16, 5, KGreg)]);
    (0x7c0007d0, #"nabso", Some [(21, 5, KGreg); (16, 5, KGreg)]);
    (0x7c0007d1, #"nabso.", Some [(21, 5, KGreg); (16, 5, KGreg)]);
    (0x1c000000, #"mulli", Some [(21, 5, KGreg); (16, 5, KGreg); (0, 16, KSi)]);
    (0x7c0000d6, #"mul", Some [(21, 5, KGreg); (16, 5, KGreg); (11, 5, KGreg)]);
    (0x7c0000d7, #"mul.", Some [(21, 5, KGreg); (16, 5, KGreg); (11, 5, KGreg)]);
    (0x7c0004d6, #"mulo", Some [(21, 5, KGreg); (16, 5, KGreg); (11, 5, KGreg)]);
    (0x7c0004d7, #"mulo.", Some [(21, 5, KGreg); (16, 5, KGreg); (11, 5, KGreg)]);
    (0x7c000296, #"div", Some [(21, 5, KGreg); (16, 5, KGreg); (11, 5, KGreg)]);
    (0x7c000297, #"div.", Some [(21, 5, KGreg); (16, 5, KGreg); (11, 5, KGreg)]);
    (0x7c000696, #"divo", Some [(21, 5, KGreg); (16, 5, KGreg); (11, 5, KGreg)]);
    (0x7c000697, #"divo.", Some [(21, 5, KGreg); (16, 5, KGreg); (11, 5, KGreg)]);
    (0x7c0002d6, #"divs", Some [(21, 5, KGreg); (16, 5, KGreg); (11, 5, KGreg)]);
    (0x7c0002d7, #"divs.", Some [(21, 5, KGreg); (16, 5, KGreg); (11, 5, KGreg)]);
    (0x7c0006d6, #"divso", Some [(21, 5, KGreg); (16, 5, KGreg); (11, 5, KGreg)]);
    (0x7c0006d7, #"divso.", Some [(21, 5, KGreg); (16, 5, KGreg); (11, 5, KGreg)]);
    (0x58000000, #"rlmi", Some [(16, 5, KGreg); (21, 5, KGreg); (11, 5, KGreg); (6, 5, K_MBE); (1, 5, K_MBE)]);
    (0x58000001, #"rlmi.", Some [(16, 5, KGreg); (21, 5, KGreg); (11, 5, KGreg); (6, 5, K_MBE); (1, 5, K_MBE)]);
    (0x7c000432, #"rrib", Some [(16, 5, KGreg); (21, 5, KGreg); (11, 5, KGreg)]);
    (0x7c000433, #"rrib.", Some [(16, 5, KGreg); (21, 5, KGreg); (11, 5, KGreg)]);
    (0x7c00003a, #"maskg", Some [(16, 5, KGreg); (21, 5, KGreg); (11, 5, KGreg)]);
    (0x7c00003b, #"maskg.", Some [(16, 5, KGreg); (21, 5, KGreg); (11, 5, KGreg)]);
    (0x7c00043a, #"maskir", Some [(16, 5, KGreg); (21, 5, KGreg); (11, 5, KGreg)]);
    (0x7c00043b, #"maskir.", Some [(16, 5, KGreg); (21, 5, KGreg); (11, 5, KGreg)]);
    (0x7c000130, #"slq", Some [(16, 5, KGreg); (21, 5, KGreg); (11, 5, KGreg)]);
    (0x7c000131, #"slq.", Some [(16, 5, KGreg); (21, 5, KGreg); (11, 5, KGreg)]);
    (0x7c000530, #"srq", Some [(16, 5, KGreg); (21, 5, KGreg); (11, 5, KGreg)]);
    (0x7c000531, #"srq.", Some [(16, 5, KGreg); (21, 5, KGreg); (11, 5, KGreg)]);
    (0x7c000170, #"sliq", Some [(16, 5, KGreg); (21, 5, KGreg); (11, 5, KNum)]);
    (0x7c000171, #"sliq.", Some [(16, 5, KGreg); (21, 5, KGreg); (11, 5, KNum)]);
    (0x7c000570, #"sriq", Some [(16, 5, KGreg); (21, 5, KGreg); (11, 5, KNum)]);
    (0x7c000571, #"sriq.", Some [(16, 5, KGreg); (21, 5, KGreg); (11, 5, KNum)]);
    (0x7c0001f0, #"slliq", Some [(16, 5, KGreg); (21, 5, KGreg); (11, 5, KNum)]);
    (0x7c0001f1, #"slliq.", Some [(16, 5, KGreg); (21, 5, KGreg); (11, 5, KNum)]);
    (0x7c0005f0, #"srliq", Some [(16, 5, KGreg); (21, 5, KGreg); (11, 5, KNum)]);
    (0x7c0005f1, #"srliq.", Some [(16, 5, KGreg); (21, 5, KGreg); (11, 5, KNum)]);
    (0x7c0001b0, #"sllq", Some [(16, 5, KGreg); (21, 5, KGreg); (11, 5, KGreg)]);
    (0x7c0001b1, #"sllq.", Some [(16, 5, KGreg); (21, 5, KGreg); (11, 5, KGreg)]);
    (0x7c0005b0, #"srlq", Some [(16, 5, KGreg); (21, 5, KGreg); (11, 5, KGreg)]);
    (0x7c0005b1, #"srlq.", Some [(16, 5, KGreg); (21, 5, KGreg); (11, 5, KGreg)]);
    (0x7c000132, #"sle", Some [(16, 5, KGreg); (21, 5, KGreg); (11, 5, KGreg)]);
    (0x7c000133, #"sle.", Some [(16, 5, KGreg); (21, 5, KGreg); (11, 5, KGreg)]);
    (0x7c000532, #"sre", Some [(16, 5, KGreg); (21, 5, KGreg); (11, 5, KGreg)]);
    (0x7c000533, #"sre.", Some [(16, 5, KGreg); (21, 5, KGreg); (11, 5, KGreg)]);
    (0x7c0001b2, #"sleq", Some [(16, 5, KGreg); (21, 5, KGreg); (11, 5, KGreg)]);
    (0x7c0001b3, #"sleq.", Some [(16, 5, KGreg); (21, 5, KGreg); (11, 5, KGreg)]);
    (0x7c0005b2, #"sreq", Some [(16, 5, KGreg); (21, 5, KGreg); (11, 5, KGreg)]);
    (0x7c0005b3, #"sreq.", Some [(16, 5, KGreg); (21, 5, KGreg); (11, 5, KGreg)]);
    (0x7c000770, #"sraiq", Some [(16, 5, KGreg); (21, 5, KGreg); (11, 5, KNum)]);
    (0x7c000771, #"sraiq.", Some [(16, 5, KGreg); (21, 5, KGreg); (11, 5, KNum)]);
    (0x7c000730, #"sraq", Some [(16, 5, KGreg); (21, 5, KGreg); (11, 5, KGreg)]);
    (0x7c000731, #"sraq.", Some [(16, 5, KGreg); (21, 5, KGreg); (11, 5, KGreg)]);
    (0x7c000732, #"srea", Some [(16, 5, KGreg); (21, 5, KGreg); (11, 5, KGreg)]);
    (0x7c000733, #"srea.", Some [(16, 5, KGreg); (21, 5, KGreg); (11, 5, KGreg)]);
    (0x7c000426, #"clcs", Some [(21, 5, KGreg); (16, 5, KGreg)]);
    (0x7c0007a4, #"tlbld", Some [(11, 5, KGreg)]);
    (0x7c0007e4, #"tlbli", Some [(11, 5, KGreg)]);
    (0x7c00000e, #"lvebx", Some [(21, 5, K_VREG); (16, 5, KG0reg); (11, 5, KGreg)]);
    (0x7c00004e, #"lvehx", Some [(21, 5, K_VREG); (16, 5, KG0reg); (11, 5, KGreg)]);
    (0x7c00008e, #"lvewx", Some [(21, 5, K_VREG); (16, 5, KG0reg); (11, 5, KGreg)]);
    (0x7c0000ce, #"lvx", Some [(21, 5, K_VREG); (16, 5, KG0reg); (11, 5, KGreg)]);
    (0x7c0002ce, #"lvxl", Some [(21, 5, K_VREG); (16, 5, KG0reg); (11, 5, KGreg)]);
    (0x7c00010e, #"stvebx", Some [(21, 5, K_VREG); (16, 5, KG0reg); (11, 5, KGreg)]);
    (0x7c00014e, #"stvehx", Some [(21, 5, K_VREG); (16, 5, KG0reg); (11, 5, KGreg)]);
    (0x7c00018e, #"stvewx", Some [(21, 5, K_VREG); (16, 5, KG0reg); (11, 5, KGreg)]);
    (0x7c0001ce, #"stvx", Some [(21, 5, K_VREG); (16, 5, KG0reg); (11, 5, KGreg)]);
    (0x7c0003ce, #"stvxl", Some [(21, 5, K_VREG); (16, 5, KG0reg); (11, 5, KGreg)]);
    (0x7c00000c, #"lvsl", Some [(21, 5, K_VREG); (16, 5, KG0reg); (11, 5, KGreg)]);
    (0x7c00004c, #"lvsr", Some [(21, 5, K_VREG); (16, 5, KG0reg); (11, 5, KGreg)]);
    (0x10000644, #"mtvscr", Some [(11, 5, K_VREG)]);
    (0x10000604, #"mfvscr", Some [(21, 5, K_VREG)]);
    (0x7c0002ac, #"dst", Some [(16, 5, KGreg); (11, 5, KGreg); (21, 2, KNum)]);
    (0x7e0002ac, #"dstt", Some [(16, 5, KGreg); (11, 5, KGreg); (21, 2, KNum)]);
    (0x7c0002ec, #"dstst", Some [(16, 5, KGreg); (11, 5, KGreg); (21, 2, KNum)]);
    (0x7e0002ec, #"dststt", Some [(16, 5, KGreg); (11, 5, KGreg); (21, 2, KNum)]);
    (0x7c00066c, #"dss", Some [(21, 2, KNum)]);
    (0x7e00066c, #"dssall", None);
    (0x10000000, #"vaddubm", Some [(21, 5, K_VREG); (16, 5, K_VREG); (11, 5, K_VREG)]);
    (0x10000200, #"vaddubs", Some [(21, 5, K_VREG); (16, 5, K_VREG); (11, 5, K_VREG)]);
    (0x10000300, #"vaddsbs", Some [(21, 5, K_VREG); (16, 5, K_VREG); (11, 5, K_VREG)]);
    (0x10000040, #"vadduhm", Some [(21, 5, K_VREG); (16, 5, K_VREG); (11, 5, K_VREG)]);
    (0x10000240, #"vadduhs", Some [(21, 5, K_VREG); (16, 5, K_VREG); (11, 5, K_VREG)]);
    (0x10000340, #"vaddshs", Some [(21, 5, K_VREG); (16, 5, K_VREG); (11, 5, K_VREG)]);
    (0x10000080, #"vadduwm", Some [(21, 5, K_VREG); (16, 5, K_VREG); (11, 5, K_VREG)]);
    (0x10000280, #"vadduws", Some [(21, 5, K_VREG); (16, 5, K_VREG); (11, 5, K_VREG)]);
    (0x10000380, #"vaddsws", Some [(21, 5, K_VREG); (16, 5, K_VREG); (11, 5, K_VREG)]);
    (0x1000000a, #"vaddfp", Some [(21, 5, K_VREG); (16, 5, K_VREG); (11, 5, K_VREG)]);
    (0x10000180, #"vaddcuw", Some [(21, 5, K_VREG); (16, 5, K_VREG); (11, 5, K_VREG)]);
    (0x10000400, #"vsububm", Some [(21, 5, K_VREG); (16, 5, K_VREG); (11, 5, K_VREG)]);
    (0x10000600, #"vsububs", Some [(21, 5, K_VREG); (16, 5, K_VREG); (11, 5, K_VREG)]);
    (0x10000700, #"vsubsbs", Some [(21, 5, K_VREG); (16, 5, K_VREG); (11, 5, K_VREG)]);
    (0x10000440, #"vsubuhm", Some [(21, 5, K_VREG); (16, 5, K_VREG); (11, 5, K_VREG)]);
    (0x10000640, #"vsubuhs", Some [(21, 5, K_VREG); (16, 5, K_VREG); (11, 5, K_VREG)]);
    (0x10000740, #"vsubshs", Some [(21, 5, K_VREG); (16, 5, K_VREG); (11, 5, K_VREG)]);
    (0x10000480, #"vsubuwm", Some [(21, 5, K_VREG); (16, 5, K_VREG); (11, 5, K_VREG)]);
    (0x10000680, #"vsubuws", Some [(21, 5, K_VREG); (16, 5, K_VREG); (11, 5, K_VREG)]);
    (0x10000780, #"vsubsws", Some [(21, 5, K_VREG); (16, 5, K_VREG); (11, 5, K_VREG)]);
    (0x1000004a, #"vsubfp", Some [(21, 5, K_VREG); (16, 5, K_VREG); (11, 5, K_VREG)]);
    (0x10000580, #"vsubcuw", Some [(21, 5, K_VREG); (16, 5, K_VREG); (11, 5, K_VREG)]);
    (0x10000008, #"vmuloub", Some [(21, 5, K_VREG); (16, 5, K_VREG); (11, 5, K_VREG)]);
    (0x10000108, #"vmulosb", Some [(21, 5, K_VREG); (16, 5, K_VREG); (11, 5, K_VREG)]);
    (0x10000048, #"vmulouh", Some [(21, 5, K_VREG); (16, 5, K_VREG); (11, 5, K_VREG)]);
    (0x10000148, #"vmulosh", Some [(21, 5, K_VREG); (16, 5, K_VREG); (11, 5, K_VREG)]);
    (0x10000208, #"vmuleub", Some [(21, 5, K_VREG); (16, 5, K_VREG); (11, 5, K_VREG)]);
    (0x10000308, #"vmulesb", Some [(21, 5, K_VREG); (16, 5, K_VREG); (11, 5, K_VREG)]);
    (0x10000248, #"vmuleuh", Some [(21, 5, K_VREG); (16, 5, K_VREG); (11, 5, K_VREG)]);
    (0x10000348, #"vmulesh", Some [(21, 5, K_VREG); (16, 5, K_VREG); (11, 5, K_VREG)]);
    (0x10000020, #"vmhaddshs", Some [(21, 5, K_VREG); (16, 5, K_VREG); (11, 5, K_VREG); (6, 5, K_VREG)]);
    (0x10000021, #"vmhraddshs", Some [(21, 5, K_VREG); (16, 5, K_VREG); (11, 5, K_VREG); (6, 5, K_VREG)]);
    (0x10000022, #"vmladduhm", Some [(21, 5, K_VREG); (16, 5, K_VREG); (11, 5, K_VREG); (6, 5, K_VREG)]);
    (0x1000002e, #"vmaddfp", Some [(21, 5, K_VREG); (16, 5, K_VREG); (6, 5, K_VREG); (11, 5, K_VREG)]);
    (0x10000024, #"vmsumubm", Some [(21, 5, K_VREG); (16, 5, K_VREG); (11, 5, K_VREG); (6, 5, K_VREG)]);
    (0x10000025, #"vmsummbm", Some [(21, 5, K_VREG); (16, 5, K_VREG); (11, 5, K_VREG); (6, 5, K_VREG)]);
    (0x10000026, #"vmsumuhm", Some [(21, 5, K_VREG); (16, 5, K_VREG); (11, 5, K_VREG); (6, 5, K_VREG)]);
    (0x10000027, #"vmsumuhs", Some [(21, 5, K_VREG); (16, 5, K_VREG); (11, 5, K_VREG); (6, 5, K_VREG)]);
    (0x10000028, #"vmsumshm", Some [(21, 5, K_VREG); (16, 5, K_VREG); (11, 5, K_VREG); (6, 5, K_VREG)]);
    (0x10000029, #"vmsumshs", Some [(21, 5, K_VREG); (16, 5, K_VREG); (11, 5, K_VREG); (6, 5, K_VREG)]);
    (0x10000788, #"vsumsws", Some [(21, 5, K_VREG); (16, 5, K_VREG); (11, 5, K_VREG)]);
    (0x10000688, #"vsum2sws", Some [(21, 5, K_VREG); (16, 5, K_VREG); (11, 5, K_VREG)]);
    (0x10000608, #"vsum4ubs", Some [(21, 5, K_VREG); (16, 5, K_VREG); (11, 5, K_VREG)]);
    (0x10000708, #"vsum4sbs", Some [(21, 5, K_VREG); (16, 5, K_VREG); (11, 5, K_VREG)]);
    (0x10000648, #"vsum4shs", Some [(21, 5, K_VREG); (16, 5, K_VREG); (11, 5, K_VREG)]);
    (0x10000402, #"vavgub", Some [(21, 5, K_VREG); (16, 5, K_VREG); (11, 5, K_VREG)]);
    (0x10000442, #"vavguh", Some [(21, 5, K_VREG); (16, 5, K_VREG); (11, 5, K_VREG)]);
    (0x10000482, #"vavguw", Some [(21, 5, K_VREG); (16, 5, K_VREG); (11, 5, K_VREG)]);
    (0x10000502, #"vavgsb", Some [(21, 5, K_VREG); (16, 5, K_VREG); (11, 5, K_VREG)]);
    (0x10000542, #"vavgsh", Some [(21, 5, K_VREG); (16, 5, K_VREG); (11, 5, K_VREG)]);
    (0x10000582, #"vavgsw", Some [(21, 5, K_VREG); (16, 5, K_VREG); (11, 5, K_VREG)]);
    (0x10000404, #"vand", Some [(21, 5, K_VREG); (16, 5, K_VREG); (11, 5, K_VREG)]);
    (0x10000484, #"vor", Some [(21, 5, K_VREG); (16, 5, K_VREG); (11, 5, K_VREG)]);
    (0x100004c4, #"vxor", Some [(21, 5, K_VREG); (16, 5, K_VREG); (11, 5, K_VREG)]);
    (0x10000444, #"vandc", Some [(21, 5, K_VREG); (16, 5, K_VREG); (11, 5, K_VREG)]);
    (0x10000504, #"vnor", Some [(21, 5, K_VREG); (16, 5, K_VREG); (11, 5, K_VREG)]);
    (0x10000004, #"vrlb", Some [(21, 5, K_VREG); (16, 5, K_VREG); (11, 5, K_VREG)]);
    (0x10000044, #"vrlh", Some [(21, 5, K_VREG); (16, 5, K_VREG); (11, 5, K_VREG)]);
    (0x10000084, #"vrlw", Some [(21, 5, K_VREG); (16, 5, K_VREG); (11, 5, K_VREG)]);
    (0x10000104, #"vslb", Some [(21, 5, K_VREG); (16, 5, K_VREG); (11, 5, K_VREG)]);
    (0x10000144, #"vslh", Some [(21, 5, K_VREG); (16, 5, K_VREG); (11, 5, K_VREG)]);
    (0x10000184, #"vslw", Some [(21, 5, K_VREG); (16, 5, K_VREG); (11, 5, K_VREG)]);
    (0x100001c4, #"vsl", Some [(21, 5, K_VREG); (16, 5, K_VREG); (11, 5, K_VREG)]);
    (0x10000204, #"vsrb", Some [(21, 5, K_VREG); (16, 5, K_VREG); (11, 5, K_VREG)]);
    (0x10000304, #"vsrab", Some [(21, 5, K_VREG); (16, 5, K_VREG); (11, 5, K_VREG)]);
    (0x10000244, #"vsrh", Some [(21, 5, K_VREG); (16, 5, K_VREG); (11, 5, K_VREG)]);
    (0x10000344, #"vsrah", Some [(21, 5, K_VREG); (16, 5, K_VREG); (11, 5, K_VREG)]);
    (0x10000284, #"vsrw", Some [(21, 5, K_VREG); (16, 5, K_VREG); (11, 5, K_VREG)]);
    (0x10000384, #"vsraw", Some [(21, 5, K_VREG); (16, 5, K_VREG); (11, 5, K_VREG)]);
    (0x100002c4, #"vsr", Some [(21, 5, K_VREG); (16, 5, K_VREG); (11, 5, K_VREG)]);
    (0x10000206, #"vcmpgtub", Some [(21, 5, K_VREG); (16, 5, K_VREG); (11, 5, K_VREG)]);
    (0x10000606, #"vcmpgtub.", Some [(21, 5, K_VREG); (16, 5, K_VREG); (11, 5, K_VREG)]);
    (0x10000306, #"vcmpgtsb", Some [(21, 5, K_VREG); (16, 5, K_VREG); (11, 5, K_VREG)]);
    (0x10000706, #"vcmpgtsb.", Some [(21, 5, K_VREG); (16, 5, K_VREG); (11, 5, K_VREG)]);
    (0x10000246, #"vcmpgtuh", Some [(21, 5, K_VREG); (16, 5, K_VREG); (11, 5, K_VREG)]);
    (0x10000646, #"vcmpgtuh.", Some [(21, 5, K_VREG); (16, 5, K_VREG); (11, 5, K_VREG)]);
    (0x10000346, #"vcmpgtsh", Some [(21, 5, K_VREG); (16, 5, K_VREG); (11, 5, K_VREG)]);
    (0x10000746, #"vcmpgtsh.", Some [(21, 5, K_VREG); (16, 5, K_VREG); (11, 5, K_VREG)]);
    (0x10000286, #"vcmpgtuw", Some [(21, 5, K_VREG); (16, 5, K_VREG); (11, 5, K_VREG)]);
    (0x10000686, #"vcmpgtuw.", Some [(21, 5, K_VREG); (16, 5, K_VREG); (11, 5, K_VREG)]);
    (0x10000386, #"vcmpgtsw", Some [(21, 5, K_VREG); (16, 5, K_VREG); (11, 5, K_VREG)]);
    (0x10000786, #"vcmpgtsw.", Some [(21, 5, K_VREG); (16, 5, K_VREG); (11, 5, K_VREG)]);
    (0x100002c6, #"vcmpgtfp", Some [(21, 5, K_VREG); (16, 5, K_VREG); (11, 5, K_VREG)]);
    (0x100006c6, #"vcmpgtfp.", Some [(21, 5, K_VREG); (16, 5, K_VREG); (11, 5, K_VREG)]);
    (0x10000006, #"vcmpequb", Some [(21, 5, K_VREG); (16, 5, K_VREG); (11, 5, K_VREG)]);
    (0x10000406, #"vcmpequb.", Some [(21, 5, K_VREG); (16, 5, K_VREG); (11, 5, K_VREG)]);
    (0x10000046, #"vcmpequh", Some [(21, 5, K_VREG); (16, 5, K_VREG); (11, 5, K_VREG)]);
    (0x10000446, #"vcmpequh.", Some [(21, 5, K_VREG); (16, 5, K_VREG); (11, 5, K_VREG)]);
    (0x10000086, #"vcmpequw", Some [(21, 5, K_VREG); (16, 5, K_VREG); (11, 5, K_VREG)]);
    (0x10000486, #"vcmpequw.", Some [(21, 5, K_VREG); (16, 5, K_VREG); (11, 5, K_VREG)]);
    (0x100000c6, #"vcmpeqfp", Some [(21, 5, K_VREG); (16, 5, K_VREG); (11, 5, K_VREG)]);
    (0x100004c6, #"vcmpeqfp.", Some [(21, 5, K_VREG); (16, 5, K_VREG); (11, 5, K_VREG)]);
    (0x100001c6, #"vcmpgefp", Some [(21, 5, K_VREG); (16, 5, K_VREG); (11, 5, K_VREG)]);
    (0x100005c6, #"vcmpgefp.", Some [(21, 5, K_VREG); (16, 5, K_VREG); (11, 5, K_VREG)]);
    (0x100003c6, #"vcmpbfp", Some [(21, 5, K_VREG); (16, 5, K_VREG); (11, 5, K_VREG)]);
    (0x100007c6, #"vcmpbfp.", Some [(21, 5, K_VREG); (16, 5, K_VREG); (11, 5, K_VREG)]);
    (0x1000002a, #"vsel", Some [(21, 5, K_VREG); (16, 5, K_VREG); (11, 5, K_VREG); (6, 5, K_VREG)]);
    (0x1000000e, #"vpkuhum", Some [(21, 5, K_VREG); (16, 5, K_VREG); (11, 5, K_VREG)]);
    (0x1000008e, #"vpkuhus", Some [(21, 5, K_VREG); (16, 5, K_VREG); (11, 5, K_VREG)]);
    (0x1000010e, #"vpkshus", Some [(21, 5, K_VREG); (16, 5, K_VREG); (11, 5, K_VREG)]);
    (0x1000018e, #"vpkshss", Some [(21, 5, K_VREG); (16, 5, K_VREG); (11, 5, K_VREG)]);
    (0x1000004e, #"vpkuwum", Some [(21, 5, K_VREG); (16, 5, K_VREG); (11, 5, K_VREG)]);
    (0x100000ce, #"vpkuwus", Some [(21, 5, K_VREG); (16, 5, K_VREG); (11, 5, K_VREG)]);
    (0x1000014e, #"vpkswus", Some [(21, 5, K_VREG); (16, 5, K_VREG); (11, 5, K_VREG)]);
    (0x100001ce, #"vpkswss", Some [(21, 5, K_VREG); (16, 5, K_VREG); (11, 5, K_VREG)]);
    (0x1000030e, #"vpkpx", Some [(21, 5, K_VREG); (16, 5, K_VREG); (11, 5, K_VREG)]);
    (0x1000020e, #"vupkhsb", Some [(21, 5, K_VREG); (11, 5, K_VREG)]);
    (0x1000024e, #"vupkhsh", Some [(21, 5, K_VREG); (11, 5, K_VREG)]);
    (0x1000034e, #"vupkhpx", Some [(21, 5, K_VREG); (11, 5, K_VREG)]);
    (0x1000028e, #"vupklsb", Some [(21, 5, K_VREG); (11, 5, K_VREG)]);
    (0x100002ce, #"vupklsh", Some [(21, 5, K_VREG); (11, 5, K_VREG)]);
    (0x100003ce, #"vupklpx", Some [(21, 5, K_VREG); (11, 5, K_VREG)]);
    (0x1000000c, #"vmrghb", Some [(21, 5, K_VREG); (16, 5, K_VREG); (11, 5, K_VREG)]);
    (0x1000004c, #"vmrghh", Some [(21, 5, K_VREG); (16, 5, K_VREG); (11, 5, K_VREG)]);
    (0x1000008c, #"vmrghw", Some [(21, 5, K_VREG); (16, 5, K_VREG); (11, 5, K_VREG)]);
    (0x1000010c, #"vmrglb", Some [(21, 5, K_VREG); (16, 5, K_VREG); (11, 5, K_VREG)]);
    (0x1000014c, #"vmrglh", Some [(21, 5, K_VREG); (16, 5, K_VREG); (11, 5, K_VREG)]);
    (0x1000018c, #"vmrglw", Some [(21, 5, K_VREG); (16, 5, K_VREG); (11, 5, K_VREG)]);
    (0x1000020c, #"vspltb", Some [(21, 5, K_VREG); (11, 5, K_VREG); (16, 5, KNum)]);
    (0x1000024c, #"vsplth", Some [(21, 5, K_VREG); (11, 5, K_VREG); (16, 5, KNum)]);
    (0x1000028c, #"vspltw", Some [(21, 5, K_VREG); (11, 5, K_VREG); (16, 5, KNum)]);
    (0x1000030c, #"vspltisb", Some [(21, 5, K_VREG); (16, 5, KSnum)]);
    (0x1000034c, #"vspltish", Some [(21, 5, K_VREG); (16, 5, KSnum)]);
    (0x1000038c, #"vspltisw", Some [(21, 5, K_VREG); (16, 5, KSnum)]);
    (0x1000002b, #"vperm", Some [(21, 5, K_VREG); (16, 5, K_VREG); (11, 5, K_VREG); (6, 5, K_VREG)]);
    (0x1000002c, #"vsldoi", Some [(21, 5, K_VREG); (16, 5, K_VREG); (11, 5, K_VREG); (6, 4, KNum)]);
    (0x1000040c, #"vslo", Some [(21, 5, K_VREG); (16, 5, K_VREG); (11, 5, K_VREG)]);
    (0x1000044c, #"vsro", Some [(21, 5, K_VREG); (16, 5, K_VREG); (11, 5, K_VREG)]);
    (0x10000002, #"vmaxub", Some [(21, 5, K_VREG); (16, 5, K_VREG); (11, 5, K_VREG)]);
    (0x10000102, #"vmaxsb", Some [(21, 5, K_VREG); (16, 5, K_VREG); (11, 5, K_VREG)]);
    (0x10000042, #"vmaxuh", Some [(21, 5, K_VREG); (16, 5, K_VREG); (11, 5, K_VREG)]);
    (0x10000142, #"vmaxsh", Some [(21, 5, K_VREG); (16, 5, K_VREG); (11, 5, K_VREG)]);
    (0x10000082, #"vmaxuw", Some [(21, 5, K_VREG); (16, 5, K_VREG); (11, 5, K_VREG)]);
    (0x10000182, #"vmaxsw", Some [(21, 5, K_VREG); (16, 5, K_VREG); (11, 5, K_VREG)]);
    (0x1000040a, #"vmaxfp", Some [(21, 5, K_VREG); (16, 5, K_VREG); (11, 5, K_VREG)]);
    (0x10000202, #"vminub", Some [(21, 5, K_VREG); (16, 5, K_VREG); (11, 5, K_VREG)]);
    (0x10000302, #"vminsb", Some [(21, 5, K_VREG); (16, 5, K_VREG); (11, 5, K_VREG)]);
    (0x10000242, #"vminuh", Some [(21, 5, K_VREG); (16, 5, K_VREG); (11, 5, K_VREG)]);
    (0x10000342, #"vminsh", Some [(21, 5, K_VREG); (16, 5, K_VREG); (11, 5, K_VREG)]);
    (0x10000282, #"vminuw", Some [(21, 5, K_VREG); (16, 5, K_VREG); (11, 5, K_VREG)]);
    (0x10000382, #"vminsw", Some [(21, 5, K_VREG); (16, 5, K_VREG); (11, 5, K_VREG)]);
    (0x1000044a, #"vminfp", Some [(21, 5, K_VREG); (16, 5, K_VREG); (11, 5, K_VREG)]);
    (0x1000010a, #"vrefp", Some [(21, 5, K_VREG); (11, 5, K_VREG)]);
    (0x1000014a, #"vrsqrtefp", Some [(21, 5, K_VREG); (11, 5, K_VREG)]);
    (0x100001ca, #"vlogefp", Some [(21, 5, K_VREG); (11, 5, K_VREG)]);
    (0x1000018a, #"vexptefp", Some [(21, 5, K_VREG); (11, 5, K_VREG)]);
    (0x1000002f, #"vnmsubfp", Some [(21, 5, K_VREG); (16, 5, K_VREG); (6, 5, K_VREG); (11, 5, K_VREG)]);
    (0x1000020a, #"vrfin", Some [(21, 5, K_VREG); (11, 5, K_VREG)]);
    (0x1000024a, #"vrfiz", Some [(21, 5, K_VREG); (11, 5, K_VREG)]);
    (0x1000028a, #"vrfip", Some [(21, 5, K_VREG); (11, 5, K_VREG)]);
    (0x100002ca, #"vrfim", Some [(21, 5, K_VREG); (11, 5, K_VREG)]);
    (0x1000038a, #"vctuxs", Some [(21, 5, K_VREG); (11, 5, K_VREG); (16, 5, KNum)]);
    (0x100003ca, #"vctsxs", Some [(21, 5, K_VREG); (11, 5, K_VREG); (16, 5, KNum)]);
    (0x1000030a, #"vcfux", Some [(21, 5, K_VREG); (11, 5, K_VREG); (16, 5, KNum)]);
    (0x1000034a, #"vcfsx", Some [(21, 5, K_VREG); (11, 5, K_VREG); (16, 5, KNum)])
  ].

(** cpu/powerpc.py:1356-1374 register_instructions: the conditions of each name, with the
    number of its first entry *)
Fixpoint ppc_add (name : str) (base : Z) (c : option (list item)) (t : list (str * (Z * list (option (list item)))))
  : list (str * (Z * list (option (list item)))) :=
  match t with
  | [] => [(name, (base, [c]))]
  | (n, (b, cs)) :: rest =>
      if str_eqb n name then (n, (b, cs ++ [c])) :: rest else (n, (b, cs)) :: ppc_add name base c rest
  end.
(** cpu/powerpc.py:1356-1374 *)
Definition ppc_opcodes : list (str * (Z * list (option (list item)))) :=
  fold_left (fun t '(base, name, c) => ppc_add (upper name) base c t) ppc_table [].
(** cpu/powerpc.py:1374: registered under their names *)
Definition ppc_ops : list (str * opcode) := map (fun '(n, (b, cs)) => (n, OFun (ppc_call b cs))) ppc_opcodes.

(** cpu/powerpc.py:1350 the class *)
Definition powerpc (e : env) : cfg := mk_cfg ppc_p e ppc_ops [] [] [].
