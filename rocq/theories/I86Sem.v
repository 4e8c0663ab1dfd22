(** The 8086 model on classes of operands: a symbolic evaluation. *)
From Coq Require Import Lia.
From Verif Require Import Py PyFacts Utils Tokenizer State Assembler Instr I8086.
From Verif Require Import SpecUtils SpecExec SpecCpu SpecI86.
Local Open Scope Z_scope.

Section Sem.
  Context {A : Type} (tag : A -> Z).
  Record smod := Smod { sm_mod : option Z; sm_reg : option Z; sm_rm : option Z; sm_disp : option A }.
  Inductive step := Skip | Fail | Wild | Next (pre : bytes) (v : option (fld * A)) (m : smod).
  Definition regname (o : opd A) : option str :=
    match o with
    | R8 n => nth_error bytes_regs (Z.to_nat n) | R16 n => nth_error words_regs (Z.to_nat n) | SR n => nth_error segs_regs (Z.to_nat n)
    | _ => None
    end.
  Definition disp_of (d : option A) : option (fld * A) := match d with Some d => Some (Disp16, d) | None => None end.
  Definition sbuild (m : smod) : step :=
    match sm_mod m, sm_reg m, sm_rm m with
    | Some a, Some b, Some c => Next [a * 64 + b * 8 + c] (disp_of (sm_disp m)) m
    | _, _, _ => Fail
    end.
  Definition sbuild_if (m : smod) : step := match sm_reg m with None => Next [] None m | Some _ => sbuild m end.
  Definition sreg (first : bool) (n : Z) (m : smod) : step :=
    let m := Smod (sm_mod m) (Some n) (sm_rm m) (sm_disp m) in
    if first then Next [] None m else sbuild m.
  Definition smem (r : Z) (d : option A) (m : smod) : step :=
    sbuild_if (Smod (Some (match d with None => 0 | Some _ => 2 end)) (sm_reg m) (Some r) d).
  Definition sstep (a : arg) (first : bool) (o : opd A) (m : smod) : step :=
    match a, o with
    | AReg w, _ => match regname o with Some x => if str_eqb x w then Next [] None m else Skip | None => Skip end
    | AEb, R8 n | AEv, R16 n => sbuild_if (Smod (Some 3) (sm_reg m) (Some n) (sm_disp m))
    | AEb, Mem r d | AEv, Mem r d | AM, Mem r d => smem r d m
    | AGb, R8 n | AGv, R16 n | ASw, SR n => sreg first n m
    | AIb, Val a => Next [] (Some (Imm8, a)) m
    | AIv, Val a => Next [] (Some (Imm16, a)) m
    | AJb, Val a => Next [] (Some (Jump8, a)) m
    | AJv, Val a => Next [] (Some (Jump16, a)) m
    | AJb, Mem _ _ | AJb, Dir _ | AJv, Mem _ _ | AJv, Dir _ => Wild
    | AOb, Dir a => Next [] (Some (Addr8, a)) m
    | AOv, Dir a => Next [] (Some (Imm16, a)) m
    | AMp, Dir a =>
        match sbuild (Smod (Some 0) (sm_reg m) (Some 6) (sm_disp m)) with
        | Next pre None m => Next pre (Some (Imm16, a)) m
        | Next _ (Some _) _ => Wild
        | x => x
        end
    | AI0, _ => Wild
    | A3, Val a => if tag a =? 3 then Next [] None m else Skip
    | _, _ => Skip
    end.
  (** No operand left. *)
  Definition smissing (a : arg) : step := match a with AOb | AOv | AMp => Skip | AI0 => Wild | _ => Fail end.

  Inductive outcome := Skipped (reads : list (fld * A)) | Failed | Unknown | Done (reads : list (fld * A)) (pre : bytes) (v : option (fld * A)).
  Definition opt_list {X} (v : option X) : list X := match v with Some x => [x] | None => [] end.
  Fixpoint srow (args : list arg) (first : bool) (os : list (opd A)) (m : smod) (pre : bytes) (v : option (fld * A)) : outcome :=
    match args with
    | [] => Done [] pre v
    | a :: args =>
        match match os with o :: _ => sstep a first o m | [] => smissing a end with
        | Skip => Skipped (opt_list v)
        | Fail => Failed
        | Wild => Unknown
        | Next pre' v' m' =>
            match v, v', pre' with
            | None, _, _ => srow args false (tl os) m' (pre ++ pre') v'
            | Some _, None, [] => srow args false (tl os) m' pre v
            | _, _, _ => Unknown
            end
        end
    end.
  Definition more_reads (rs : list (fld * A)) (o : outcome) : outcome :=
    match o with Skipped r => Skipped (rs ++ r) | Done r pre v => Done (rs ++ r) pre v | x => x end.
  Definition start (base : Z) : Z * smod :=
    if base >? 0xFF then (Z.shiftr base 8, Smod None (Some (Z.land base 0xFF)) None None) else (base, Smod None None None None).
  Fixpoint srows (rows : list (Z * list arg)) (os : list (opd A)) : outcome :=
    match rows with
    | [] => Skipped []
    | (base, args) :: rest =>
        let '(base, m) := start base in
        match args with
        | [] => match os with [] => Done [] [base] None | _ => Failed end
        | _ =>
            match os with
            | [] => srows rest os
            | _ =>
                match srow args true os m [] None with
                | Skipped r => more_reads r (srows rest os)
                | Done r pre v => Done r (base :: pre) v
                | x => x
                end
            end
        end
    end.
End Sem.
Arguments smod A : clear implicits.
Arguments step A : clear implicits.
Arguments outcome A : clear implicits.
