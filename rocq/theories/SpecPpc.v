(** The PowerPC instruction set as documented: registers, instruction words made of fields,
    and operands.  Bits are numbered from the most significant one, which is bit 0. *)
From Verif Require Import Py Utils Tokenizer State Assembler SpecUtils SpecExec SpecLink SpecCpu SpecMips.
Local Open Scope Z_scope.

(** Registers. *)
Definition numbered (c : str) : list str :=
  map (fun n => c ++ n)
  [ #"0"; #"1"; #"2"; #"3"; #"4"; #"5"; #"6"; #"7"; #"8"; #"9"; #"10"; #"11"; #"12"; #"13"; #"14"; #"15";
    #"16"; #"17"; #"18"; #"19"; #"20"; #"21"; #"22"; #"23"; #"24"; #"25"; #"26"; #"27"; #"28"; #"29"; #"30"; #"31" ].
Definition gprs : list str := numbered #"r".
Definition fprs : list str := numbered #"f".
(** Upper and lower case do not matter. *)
Definition nth_reg (l : list str) (t : str) (n : Z) : Prop := 0 <= n /\ nth_error l (Z.to_nat n) = Some (lower t).

(** Operands: a general register, a general register or the digit 0, a floating point register,
    a number, the target of a branch as a distance or as an address. *)
Inductive operand := Gpr | Gpr0 | Fpr | Signed | Unsigned | Distance | Address.
(** An operand and the bits from first to last which hold it. *)
Definition field : Type := operand * Z * Z.
(** An instruction: the word without its operands, and the operands in the order in which they
    are written. *)
Definition form : Type := Z * list field.

(** ** The manual *)

(** Primary opcode, extended opcode, last bit. *)
Definition code (opcd xo last : Z) : Z := opcd * 2 ^ 26 + xo * 2 + last.
(** The value v in bits first to last. *)
Definition put (first last v : Z) : Z := v mod 2 ^ (last - first + 1) * 2 ^ (31 - last).

Definition RT : field := (Gpr, 6, 10).   Definition RA : field := (Gpr, 11, 15).
Definition RA0 : field := (Gpr0, 11, 15). Definition RB : field := (Gpr, 16, 20).
Definition FRT : field := (Fpr, 6, 10).  Definition FRA : field := (Fpr, 11, 15).
Definition FRB : field := (Fpr, 16, 20). Definition FRC : field := (Fpr, 21, 25).
Definition SI : field := (Signed, 16, 31). Definition UI : field := (Unsigned, 16, 31).
Definition LI : field := (Distance, 6, 29). Definition LIA : field := (Address, 6, 29).
Definition BD : field := (Distance, 16, 29). Definition BDA : field := (Address, 16, 29).
Definition BO : field := (Unsigned, 6, 10). Definition BI : field := (Unsigned, 11, 15).
Definition BH : field := (Unsigned, 19, 20). Definition BB : field := (Unsigned, 16, 20).
Definition TH : field := (Unsigned, 7, 10). Definition L2 : field := (Unsigned, 9, 10).

(** With and without the final dot, which sets the last bit; with and without o. *)
Definition dot (opcd xo : Z) (fs : list field) (n : str) : list (str * form) :=
  [ (n, (code opcd xo 0, fs)); (n ++ #".", (code opcd xo 1, fs)) ].
Definition over (xo : Z) (fs : list field) (n : str) : list (str * form) :=
  dot 31 xo fs n ++ dot 31 (512 + xo) fs (n ++ #"o").
Definition single (xo : Z) (fs : list field) (n : str) : list (str * form) :=
  dot 63 xo fs n ++ dot 59 xo fs (n ++ #"s").
Definition one (opcd xo : Z) (fs : list field) (n : str) : list (str * form) := [ (n, (code opcd xo 0, fs)) ].

Definition arithmetic : list (str * form) :=
  flat_map (fun '(n, opcd, fs) => one opcd 0 fs n)
    [ (#"addi", 14, [RT; RA0; SI]); (#"li", 14, [RT; SI]); (#"addis", 15, [RT; RA0; UI]); (#"lis", 15, [RT; UI]);
      (#"addic", 12, [RT; RA; SI]); (#"addic.", 13, [RT; RA; SI]); (#"subfic", 8, [RT; RA; SI]);
      (#"mulli", 7, [RT; RA; SI]); (#"dozi", 9, [RT; RA; SI]);
      (#"andi.", 28, [RA; RT; UI]); (#"andis.", 29, [RA; RT; UI]); (#"ori", 24, [RA; RT; UI]); (#"oris", 25, [RA; RT; UI]);
      (#"xori", 26, [RA; RT; UI]); (#"xoris", 27, [RA; RT; UI]); (#"nop", 24, []) ] ++
  flat_map (fun '(n, xo) => over xo [RT; RA; RB] n)
    [ (#"add", 266); (#"addc", 10); (#"adde", 138); (#"subf", 40); (#"subfc", 8); (#"subfe", 136);
      (#"mull", 235); (#"mullw", 235); (#"divw", 491); (#"divwu", 459);
      (#"doz", 264); (#"mul", 107); (#"div", 331); (#"divs", 363) ] ++
  flat_map (fun '(n, xo) => over xo [RT; RB; RA] n) [ (#"sub", 40); (#"subc", 8) ] ++
  flat_map (fun '(n, xo) => over xo [RT; RA] n)
    [ (#"addme", 234); (#"addze", 202); (#"subfme", 232); (#"subfze", 200); (#"neg", 104); (#"abs", 360); (#"nabs", 488) ] ++
  flat_map (fun '(n, xo) => dot 31 xo [RT; RA; RB] n) [ (#"mulwd", 75); (#"mulhw", 75); (#"mulhwu", 11) ].
Definition logical : list (str * form) :=
  flat_map (fun '(n, xo) => dot 31 xo [RA; RT; RB] n)
    [ (#"and", 28); (#"andc", 60); (#"or", 444); (#"orc", 412); (#"xor", 316); (#"nand", 476); (#"nor", 124); (#"eqv", 284);
      (#"slw", 24); (#"srw", 536); (#"sraw", 792); (#"rrib", 537); (#"maskg", 29); (#"maskir", 541);
      (#"slq", 152); (#"srq", 664); (#"sllq", 216); (#"srlq", 728); (#"sle", 153); (#"sre", 665); (#"sleq", 217);
      (#"sreq", 729); (#"sraq", 920); (#"srea", 921) ] ++
  flat_map (fun '(n, xo) => dot 31 xo [RA; RT; BB] n)
    [ (#"srawi", 824); (#"sliq", 184); (#"sriq", 696); (#"slliq", 248); (#"srliq", 760); (#"sraiq", 952) ] ++
  flat_map (fun '(n, xo) => dot 31 xo [RA; RT] n) [ (#"cntlzw", 26); (#"extsb", 954); (#"extsh", 922) ].

(** Branches: the condition is in the fields BO and BI, AA is bit 30 and LK bit 31. *)
Definition conditions : list (str * (Z * Z)) :=
  [ (#"lt", (12, 0)); (#"le", (4, 1)); (#"eq", (12, 2)); (#"ge", (4, 0)); (#"gt", (12, 1)); (#"nl", (4, 0));
    (#"ne", (4, 2)); (#"ng", (4, 1)); (#"so", (12, 3)); (#"ns", (4, 3)); (#"un", (12, 3)); (#"nu", (4, 3)) ].
Definition counting : list (str * (Z * Z)) := [ (#"dnz", (16, 0)); (#"dz", (18, 0)) ].
Definition cond_code (o i : Z) : Z := put 6 10 o + put 11 15 i.
Definition relative_branches : list (str * form) :=
  flat_map (fun '(lk, n) =>
    [ (#"b" ++ n, (code 18 0 lk, [LI])); (#"bc" ++ n, (code 16 0 lk, [BO; BI; BD])) ] ++
    map (fun '(c, (o, i)) => (#"b" ++ c ++ n, (code 16 0 lk + cond_code o i, [BD]))) (conditions ++ counting))
  [ (0, []); (1, #"l") ].
Definition absolute_branches : list (str * form) :=
  flat_map (fun '(lk, n) =>
    [ (#"b" ++ n, (code 18 1 lk, [LIA])); (#"bc" ++ n, (code 16 1 lk, [BO; BI; BDA])) ] ++
    map (fun '(c, (o, i)) => (#"b" ++ c ++ n, (code 16 1 lk + cond_code o i, [BDA]))) (conditions ++ counting))
  [ (0, #"a"); (1, #"la") ].
Definition register_branches : list (str * form) :=
  flat_map (fun '(lk, n) =>
    [ (#"bclr" ++ n, (code 19 16 lk, [BO; BI])); (#"bclr" ++ n, (code 19 16 lk, [BO; BI; BH]));
      (#"bcctr" ++ n, (code 19 528 lk, [BO; BI])); (#"bcctr" ++ n, (code 19 528 lk, [BO; BI; BH]));
      (#"blr" ++ n, (code 19 16 lk + cond_code 20 0, [])); (#"blr" ++ n, (code 19 16 lk + cond_code 20 0, [BH]));
      (#"bctr" ++ n, (code 19 528 lk + cond_code 20 0, [])); (#"bctr" ++ n, (code 19 528 lk + cond_code 20 0, [BH]));
      (#"bctr" ++ n, (code 19 528 lk, [BO; BI])) ] ++
    flat_map (fun '(c, (o, i)) =>
      [ (#"b" ++ c ++ #"lr" ++ n, (code 19 16 lk + cond_code o i, [])); (#"b" ++ c ++ #"lr" ++ n, (code 19 16 lk + cond_code o i, [BH])) ]) counting ++
    flat_map (fun '(c, (o, i)) =>
      [ (#"b" ++ c ++ #"lr" ++ n, (code 19 16 lk + cond_code o i, [])); (#"b" ++ c ++ #"ctr" ++ n, (code 19 528 lk + cond_code o i, [])) ]) conditions)
  [ (0, []); (1, #"l") ].

(** Traps. *)
Definition trap_conditions : list (str * Z) :=
  [ (#"lt", 16); (#"le", 20); (#"eq", 4); (#"ge", 12); (#"gt", 8); (#"nl", 12); (#"ne", 24); (#"ng", 20);
    (#"llt", 2); (#"lle", 6); (#"lge", 5); (#"lgt", 1); (#"lnl", 5); (#"lng", 6) ].
Definition comparisons : list (str * form) :=
  [ (#"twi", (code 3 0 0, [BO; RA; SI])); (#"tw", (code 31 4 0, [BO; RA; RB])); (#"trap", (code 31 4 0 + put 6 10 31, [])) ] ++
  flat_map (fun '(c, o) => [ (#"tw" ++ c ++ #"i", (code 3 0 0 + put 6 10 o, [RA; SI])); (#"tw" ++ c, (code 31 4 0 + put 6 10 o, [RA; RB])) ])
    trap_conditions ++
  flat_map (fun '(n, l) =>
    [ (#"cmp" ++ n ++ #"i", (code 11 0 0 + put 10 10 l, [RA; SI])); (#"cmp" ++ n, (code 31 0 0 + put 10 10 l, [RA; RB]));
      (#"cmpl" ++ n ++ #"i", (code 10 0 0 + put 10 10 l, [RA; UI])); (#"cmpl" ++ n, (code 31 32 0 + put 10 10 l, [RA; RB])) ])
    [ (#"w", 0); (#"d", 1) ] ++
  flat_map (fun '(n, xo) => one 19 xo [BO; BI; BB] n)
    [ (#"crand", 257); (#"crandc", 129); (#"creqv", 289); (#"crnand", 225); (#"crnor", 33); (#"cror", 449); (#"crorc", 417); (#"crxor", 193) ].

Definition floating : list (str * form) :=
  flat_map (fun '(n, xo) => single xo [FRT; FRA; FRB] n) [ (#"fadd", 21); (#"fsub", 20); (#"fdiv", 18) ] ++
  single 25 [FRT; FRA; FRC] #"fmul" ++
  flat_map (fun '(n, xo) => single xo [FRT; FRA; FRC; FRB] n) [ (#"fmadd", 29); (#"fmsub", 28); (#"fnmadd", 31); (#"fnmsub", 30) ] ++
  single 22 [FRT; FRB] #"fsqrt" ++ dot 63 23 [FRT; FRA; FRC; FRB] #"fsel" ++ dot 59 24 [FRT; FRB] #"fres" ++
  flat_map (fun '(n, xo) => dot 63 xo [FRT; FRB] n)
    [ (#"frsqrte", 26); (#"fmr", 72); (#"fabs", 264); (#"fneg", 40); (#"fnabs", 136); (#"frsp", 12); (#"fctiw", 14); (#"fctiwz", 15) ] ++
  dot 63 583 [FRT] #"mffs" ++ dot 63 134 [(Unsigned, 6, 8); (Unsigned, 16, 19)] #"mtfsfi" ++
  dot 63 711 [(Unsigned, 7, 14); FRB] #"mtfsf" ++ dot 63 70 [BO] #"mtfsb0" ++ dot 63 38 [BO] #"mtfsb1".

(** Loads and stores with the sum of two registers as address; lscbx has the dot. *)
Definition indexed : list (str * form) :=
  flat_map (fun '(n, xo) => one 31 xo [RT; RA0; RB] n)
    [ (#"lbzx", 87); (#"lhzx", 279); (#"lhax", 343); (#"lwzx", 23); (#"lhbrx", 790); (#"lwbrx", 534); (#"lswx", 533); (#"lwarx", 20);
      (#"stbx", 215); (#"sthx", 407); (#"stwx", 151); (#"sthbrx", 918); (#"stwbrx", 662); (#"stswx", 661); (#"eciwx", 310); (#"ecowx", 438) ] ++
  flat_map (fun '(n, xo) => one 31 xo [RT; RA; RB] n)
    [ (#"lbzux", 119); (#"lhzux", 311); (#"lhaux", 375); (#"lwzux", 55); (#"stbux", 247); (#"sthux", 439); (#"stwux", 183) ] ++
  flat_map (fun '(n, xo) => one 31 xo [FRT; RA0; RB] n)
    [ (#"lfsx", 535); (#"lfdx", 599); (#"stfsx", 663); (#"stfdx", 727); (#"stfiwx", 983) ] ++
  flat_map (fun '(n, xo) => one 31 xo [FRT; RA; RB] n) [ (#"lfsux", 567); (#"lfdux", 631); (#"stfsux", 695); (#"stfdux", 759) ] ++
  flat_map (fun '(n, xo) => one 31 xo [RT; RA0; BB] n) [ (#"lswi", 597); (#"stswi", 725) ] ++
  dot 31 277 [RT; RA0; RB] #"lscbx" ++ [ (#"stwcx.", (code 31 150 1, [RT; RA0; RB])) ].

(** Special registers: the number is in bits 11 to 20 with its halves exchanged. *)
Definition spr (n : Z) : Z := put 11 15 (n mod 32) + put 16 20 (n / 32).
Definition special : list (str * form) :=
  map (fun '(n, r) => (#"mf" ++ n, (code 31 339 0 + spr r, [RT])))
    [ (#"xer", 1); (#"lr", 8); (#"ctr", 9); (#"mq", 0); (#"rtcl", 5); (#"rtcu", 4) ] ++
  map (fun '(n, r) => (#"mt" ++ n, (code 31 467 0 + spr r, [RT])))
    [ (#"xer", 1); (#"lr", 8); (#"ctr", 9); (#"mq", 0); (#"rtcl", 21); (#"rtcu", 20); (#"tbl", 284); (#"tbu", 285) ] ++
  map (fun '(n, r) => (n, (code 31 371 0 + spr r, [RT]))) [ (#"mftb", 268); (#"mftbu", 269) ] ++
  flat_map (fun '(n, xo, fs) => one 31 xo fs n)
    [ (#"mfcr", 19, [RT]); (#"mtmsr", 146, [RT]); (#"mfmsr", 83, [RT]); (#"mtsrin", 242, [RT; RB]); (#"mfsrin", 659, [RT; RB]);
      (#"clcs", 531, [RT; RA]); (#"tlbld", 978, [RB]); (#"tlbli", 1010, [RB]); (#"tlbia", 370, []); (#"tlbsync", 566, []);
      (#"icbi", 982, [RA0; RB]); (#"dcbt", 278, [RA0; RB]); (#"dcbt", 278, [RA0; RB; TH]); (#"dcbtst", 246, [RA0; RB]);
      (#"dcbz", 1014, [RA0; RB]); (#"dcbst", 54, [RA0; RB]); (#"dcbf", 86, [RA0; RB]); (#"dcba", 758, [RA0; RB]); (#"dcbi", 470, [RA0; RB]);
      (#"eieio", 854, []); (#"sync", 598, []); (#"sync", 598, [L2]);
      (#"dst", 342, [RA; RB; L2]); (#"dstst", 374, [RA; RB; L2]); (#"dss", 822, [L2]) ] ++
  [ (#"dcbzl", (code 31 1014 0 + put 10 10 1, [RA0; RB])); (#"lwsync", (code 31 598 0 + put 9 10 1, []));
    (#"ptesync", (code 31 598 0 + put 9 10 2, [])); (#"dstt", (code 31 342 0 + put 6 6 1, [RA; RB; L2]));
    (#"dststt", (code 31 374 0 + put 6 6 1, [RA; RB; L2])); (#"dssall", (code 31 822 0 + put 6 6 1, []));
    (#"isync", (code 19 150 0, [])); (#"rfi", (code 19 50 0, [])); (#"sc", (code 17 1 0, [])); (#"attn", (code 0 256 0, [(Unsigned, 6, 20)])) ].

Definition manual : list (str * form) :=
  arithmetic ++ logical ++ relative_branches ++ absolute_branches ++ register_branches ++ comparisons ++ floating ++ indexed ++ special.

(** Instructions which the assembler encodes differently: name and number of operands. *)
Definition deviating : list (str * nat) :=
  [ (#"bctr", 0%nat); (#"bctr", 1%nat); (#"bctrl", 0%nat); (#"bctrl", 1%nat); (#"mftb", 1%nat) ].
(** Instructions of the processor which the assembler never accepts. *)
Definition missing : list str :=
  [ #"lbz"; #"lbzu"; #"lhz"; #"lhzu"; #"lha"; #"lhau"; #"lwz"; #"lwzu"; #"lmw"; #"stmw"; #"lfs"; #"lfsu"; #"lfd"; #"lfdu"; #"la";
    #"stb"; #"stbu"; #"sth"; #"sthu"; #"stw"; #"stwu"; #"stfs"; #"stfsu"; #"stfd"; #"stfdu";
    #"cmpi"; #"cmp"; #"cmpli"; #"cmpl"; #"fcmpu"; #"fcmpo"; #"mcrf"; #"mcrfs"; #"mcrxr"; #"mfspr"; #"mtspr"; #"mtcrf"; #"mfsr"; #"mtsr";
    #"rlwinm"; #"rlwinm."; #"rlwnm"; #"rlwnm."; #"rlwimi"; #"rlwimi."; #"bt"; #"bf"; #"mr"; #"slwi"; #"srwi"; #"subi"; #"not" ].

(** ** Operands *)

Definition ppc : pcfg := PCfg [#"0x"] [] [] [] [] [] [] [] false 0 true.
Definition width (f : field) : Z := let '(_, first, last) := f in last - first + 1.
(** A reference for the linker. *)
Definition ppc_ref (t : str) (f : field) (rel : Z) (g : option (Z -> Z)) : labeldata :=
  let '(_, first, last) := f in word_ref t (width f) rel (31 - first) (31 - last) g.
Definition quarter : option (Z -> Z) := Some (fun x => Z.shiftr x 2).

Section Operands.
  Context (s : st).
  (** Not the name of a register in lower case. *)
  Definition plain_word (t : str) : Prop := ~ In t (gprs ++ fprs).
  (** A number, or a name which leaves 0 in the word and a reference for the linker. *)
  Inductive number (f : field) (t : str) (signed : bool) (rel : Z) (g : option (Z -> Z)) : Z -> list labeldata -> Prop :=
  | n_num v : plain_word t -> num ppc s t (width f) signed v -> number f t signed rel g v []
  | n_name : plain_word t -> not_num ppc s t (width f) signed -> number f t signed rel g 0 [ppc_ref t f rel g].
  (** Register r0 can only be written where the digit 0 can.  The target of a branch written as
      a number is the number of words. *)
  Inductive reads1 : field -> str -> Z -> list labeldata -> Prop :=
  | r_gpr a b t n : nth_reg gprs t n -> n <> 0 -> reads1 (Gpr, a, b) t n []
  | r_gpr0 a b t n : nth_reg gprs t n -> reads1 (Gpr0, a, b) t n []
  | r_zero a b : reads1 (Gpr0, a, b) #"0" 0 []
  | r_fpr a b t n : nth_reg fprs t n -> reads1 (Fpr, a, b) t n []
  | r_signed a b t v ds : number (Signed, a, b) t true 0 None v ds -> reads1 (Signed, a, b) t v ds
  | r_unsigned a b t v ds : number (Unsigned, a, b) t false 0 None v ds -> reads1 (Unsigned, a, b) t v ds
  | r_distance a b t v ds : number (Distance, a, b) t (negb (pc s =? 0)) (pc s) quarter v ds -> reads1 (Distance, a, b) t v ds
  | r_address a b t v ds : number (Address, a, b) t false 0 quarter v ds -> reads1 (Address, a, b) t v ds.
  Inductive reads_all : list field -> list str -> list Z -> list labeldata -> Prop :=
  | r_nil : reads_all [] [] [] []
  | r_cons f fs t ts v vs d ds : reads1 f t v d -> reads_all fs ts vs ds -> reads_all (f :: fs) (t :: ts) (v :: vs) (d ++ ds).
  (** The word: every operand in its bits. *)
  Fixpoint filled (w : Z) (fs : list field) (vs : list Z) : Z :=
    match fs, vs with
    | (_, first, last) :: fs, v :: vs => filled (w + put first last v) fs vs
    | _, _ => w
    end.
  Definition encodes (f : form) (ops : list str) (w : Z) (ds : list labeldata) : Prop :=
    exists vs, reads_all (snd f) ops vs ds /\ w = filled (fst f) (snd f) vs.
End Operands.

(** ** Linking *)

Section Final.
  Context (s s2 : st).
  (** What a name stands for in the linked image: its address, which has to fit, or a quarter of
      its address or distance. *)
  Inductive settled1 (f : field) (t : str) : Z -> Prop :=
  | st_read v : reads1 s f t v [] -> settled1 f t v
  | st_number a sg : plain_word t -> (exists x y, f = (Signed, x, y) /\ sg = true \/ f = (Unsigned, x, y) /\ sg = false) ->
      not_num ppc s t (width f) sg ->
      label_absolute ppc (labels s2) t = Ok (Some a) -> 0 <= a < 2 ^ width f -> settled1 f t a
  | st_distance a x y : f = (Distance, x, y) -> plain_word t -> not_num ppc s t (width f) (negb (pc s =? 0)) -> pc s <> 0 ->
      label_relative ppc (labels s2) t (pc s) = Ok (Some a) -> - 2 ^ (width f - 1) <= a < 2 ^ (width f - 1) -> settled1 f t (a / 4)
  | st_address a x y : f = (Address, x, y) \/ f = (Distance, x, y) /\ pc s = 0 -> plain_word t -> not_num ppc s t (width f) false ->
      label_absolute ppc (labels s2) t = Ok (Some a) -> 0 <= a < 2 ^ width f -> settled1 f t (a / 4).
  Definition settled (f : form) (ops : list str) (w : Z) : Prop :=
    exists vs, Forall2 (fun '(f, t) v => settled1 f t v) (combine (snd f) ops) vs /\ w = filled (fst f) (snd f) vs.
End Final.

(** ** The processor *)

(** Two's complement reading of the low n bits. *)
Definition sign (n v : Z) : Z := let u := v mod 2 ^ n in if u <? 2 ^ (n - 1) then u else u - 2 ^ n.
(** Where the branch instruction w at address a goes: opcodes 18 and 16; the distance or address
    is in units of four bytes, and bit 30 tells the two apart. *)
Definition goes (a w : Z) : option Z :=
  let base := if w / 2 mod 2 =? 1 then 0 else a in
  if w / 2 ^ 26 =? 18 then Some (base + 4 * sign 24 (w / 4))
  else if w / 2 ^ 26 =? 16 then Some (base + 4 * sign 14 (w / 4))
  else None.
