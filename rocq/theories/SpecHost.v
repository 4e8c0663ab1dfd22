(** Specification of hosts (C81): when two hosts with different files can be told apart. *)
From Verif Require Import Py Utils Tokenizer State Assembler Mos6502 Mc68000 Mips32 Lr35902 Z80 Thumb Ppc I8086 X86 Platform ElfPlat.

(** The second host has every file of the first, with the same content. *)
Definition has_all {A} (f g : str -> option A) : Prop := forall n a, f n = Some a -> g n = Some a.
Definition more_files (e1 e2 : env) : Prop :=
  has_all (file_text e1) (file_text e2) /\ has_all (file_bytes e1) (file_bytes e2) /\ has_all (file_csv e1) (file_csv e2) /\
  has_all (file_json e1) (file_json e2) /\ has_all (file_image e1) (file_image e2).

(** No file has different contents on the two hosts, but each may lack files of the other. *)
Definition agreed {A} (f g : str -> option A) : Prop := forall n a b, f n = Some a -> g n = Some b -> a = b.
Definition no_conflict (e1 e2 : env) : Prop :=
  agreed (file_text e1) (file_text e2) /\ agreed (file_bytes e1) (file_bytes e2) /\ agreed (file_csv e1) (file_csv e2) /\
  agreed (file_json e1) (file_json e2) /\ agreed (file_image e1) (file_image e2).

(** The first run either stops at a file that cannot be opened or cannot be told from the second. *)
Definition missing : exc := PExc OSError.
Definition as_with_more {A} (m1 m2 : M A) : Prop := forall s, snd (m1 s) = Err missing \/ m1 s = m2 s.
(** If both runs succeed, they cannot be told apart. *)
Definition same_success {A} (m1 m2 : M A) : Prop :=
  forall s s1 s2 a1 a2, m1 s = (s1, Ok a1) -> m2 s = (s2, Ok a2) -> s1 = s2 /\ a1 = a2.

(** The same assembler on two hosts: the same tables, but the directives of a subclass may read files;
    [ok] says how they compare. *)
Definition twin (ok : (list str -> M unit) -> (list str -> M unit) -> Prop) (o1 o2 : option directive) : Prop :=
  match o1, o2 with Some (D_custom f), Some (D_custom g) => ok f g | _, _ => o1 = o2 end.
Definition twins (ok : (list str -> M unit) -> (list str -> M unit) -> Prop) (c1 c2 : cfg) : Prop :=
  c_p c1 = c_p c2 /\ c_instructions c1 = c_instructions c2 /\ c_pre_link c1 = c_pre_link c2 /\
  c_post_link c1 = c_post_link c2 /\
  forall k, twin ok (dget str_eqb (c_directives c1) k) (dget str_eqb (c_directives c2) k).

(** The assemblers of the repository. *)
Definition shipped : list (env -> cfg) :=
  [mos6502; lr35902; z80; thumb; mips32 true; mips32 false; mc68000; powerpc; i8086; x86; gameboy; nes; sms].

(** The programs built from them with a main of their own; their argument [fuel] bounds the nesting of includes. *)
Definition programs : list (env -> nat -> list str -> script) :=
  [nes_main; gba_main; psx_main; fun e => genesis_main (mc68000 e); i386_main; ppc_main; x86_64_main].
