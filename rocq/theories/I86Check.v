(** The rows of the 8086 table against the decoder, class by class. *)
From Coq Require Import Lia.
From Verif Require Import Py PyFacts Utils Tokenizer State Assembler Instr I8086.
From Verif Require Import SpecUtils SpecExec SpecCpu SpecI86 I86Sem.
Local Open Scope Z_scope.

(** A class of values: the position of the operand, and 1 or 3 for these numbers. *)
Definition cls : Type := nat * Z.
Definition ctag (a : cls) : Z := snd a.
Definition range8 : list Z := [0; 1; 2; 3; 4; 5; 6; 7].
Definition classes (i : nat) : list (opd cls) :=
  map R8 range8 ++ map R16 range8 ++ map SR [0; 1; 2; 3] ++ map (fun m => Mem m None) range8 ++
  map (fun m => Mem m (Some (i, 0))) range8 ++ [Dir (i, 0); Val (i, 0); Val (i, 1); Val (i, 3)].

Definition takesb (k : kind) (o : opd cls) : bool :=
  match k, o with
  | E8, R8 _ | E8, Mem _ _ | E16, R16 _ | E16, Mem _ _ | G8, R8 _ | G16, R16 _ | Seg, SR _ | Mm, Mem _ _ | Da, Dir _ | Vl, Val _ => true
  | AL', R8 n | AX', R16 n => n =? 0
  | DX', R16 n => n =? 2
  | Seg', SR n => negb (n =? 1)
  | One, Val t => ctag t =? 1
  | _, _ => false
  end.
Fixpoint all2 {X Y} (f : X -> Y -> bool) (xs : list X) (ys : list Y) : bool :=
  match xs, ys with [], [] => true | x :: xs, y :: ys => f x y && all2 f xs ys | _, _ => false end.
Definition sigs_of (m : str) : list (list kind) := map snd (filter (fun r => str_eqb (fst r) m) signatures).
Definition offeredb (sigs : list (list kind)) (os : list (opd cls)) : bool := existsb (fun ks => all2 takesb ks os) sigs.
Definition deviatingb (m : str) (os : list (opd cls)) : bool :=
  str_in m [#"AAM"; #"AAD"] ||
  match os with
  | [Mem _ _; Val _] => str_eqb m #"MOV" || str_in m [#"SHL"; #"SHR"]
  | [SR n; _] => (str_eqb m #"MOV" && (n =? 1)) || str_in m [#"SHL"; #"SHR"]
  | [Mem _ _] => str_eqb m #"POP" || str_in m [#"SHL"; #"SHR"] || str_in m (conditional ++ loops ++ [#"CALL"; #"JMP"])
  | [Dir _] => str_in m [#"SHL"; #"SHR"] || str_in m (conditional ++ loops ++ [#"CALL"; #"JMP"])
  | [_] => str_in m [#"SHL"; #"SHR"]
  | [_; _] => str_in m [#"SHL"; #"SHR"]
  | _ => false
  end.

Definition cls_eqb (a b : cls) : bool := Nat.eqb (fst a) (fst b) && (snd a =? snd b).
Definition opd_eqb (a b : opd cls) : bool :=
  match a, b with
  | R8 x, R8 y | R16 x, R16 y | SR x, SR y => x =? y
  | Mem x None, Mem y None => x =? y
  | Mem x (Some a), Mem y (Some b) => (x =? y) && cls_eqb a b
  | Dir a, Dir b | Val a, Val b => cls_eqb a b
  | Val a, Lit 1 => ctag a =? 1
  | Val a, Lit 3 => ctag a =? 3
  | _, _ => false
  end.
(** The value as seen by the whole instruction. *)
Definition fuse (rs : list (fld * cls)) (v : option (fld * cls)) : option (option (fld * cls)) :=
  match rs, v with
  | [], Some (AddrV, _) => None
  | [], _ => Some v
  | [(Addr8, a)], Some (Imm16, b) => if cls_eqb a b then Some (Some (AddrV, a)) else None
  | [(Imm8, a)], Some (Imm8, b) => if cls_eqb a b then Some v else None
  | _, _ => None
  end.
Definition has_bp (os : list (opd cls)) : bool := existsb (fun o => match o with Mem 6 None => true | _ => false end) os.
(** The value follows the first byte, or the instruction has to use a number. *)
Definition at_one (m : str) (os : list (opd cls)) (pre : bytes) (v : option (fld * cls)) : bool :=
  match v with
  | None => true
  | Some (Disp16, a) => match pre with [_; _] => existsb (fun o => match o with Mem _ (Some b) => cls_eqb a b | _ => false end) os | _ => false end
  | Some (f, a) =>
      match pre with
      | [_] => true
      | [_; _] => str_in m [#"LES"; #"LDS"] && match f, os with Imm16, [_; Dir b] => cls_eqb a b | _, _ => false end
      | _ => false
      end
  end.
Definition check1 (m : str) (sigs : list (list kind)) (rows : list (Z * list arg)) (os : list (opd cls)) : bool :=
  match srows ctag rows os with
  | Done rs pre v =>
      if offeredb sigs os then
        has_bp os ||
        match fuse rs v with
        | Some v => match decode pre v with Some (m', os') => str_eqb m' m && all2 opd_eqb os os' && at_one m os pre v | None => false end
        | None => false
        end
      else deviatingb m os
  | Unknown => negb (offeredb sigs os) && deviatingb m os
  | _ => negb (offeredb sigs os)
  end.
Definition arity (rows : list (Z * list arg)) : nat := fold_right (fun r n => Nat.max (length (snd r)) n) 0%nat rows.
Definition lists (m : str) (n : nat) : list (list (opd cls)) :=
  [] :: match n with
        | O => []
        | S O => map (fun o => [o]) (classes 0)
        | _ => map (fun o => [o]) (classes 0) ++ flat_map (fun o => map (fun o2 => [o; o2]) (classes 1)) (classes 0)
        end.
Definition rank (m : str) (rows : list (Z * list arg)) : nat := if str_in m [#"SHL"; #"SHR"] then 2 else Nat.max 1 (arity rows).
Definition bad (r : str * list (Z * list arg)) : list (list (opd cls)) :=
  let '(m, rows) := r in let sigs := sigs_of m in
  filter (fun os => negb (check1 m sigs rows os)) (lists m (rank m rows)).
