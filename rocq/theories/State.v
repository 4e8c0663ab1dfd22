(** Assembler state, the state-and-exception monad and the data carried by the
    assembler (assembler.py:39-109, macros.py, statements.py). *)
From Verif Require Import Py Utils Tokenizer.
Local Open Scope Z_scope.

(** assembler.py:39-51 LabelData with the defaults and the fields set by
    add_label_translation (297-308).  [ld_hook address value output] is the
    effect of the hook closure on the output bytes (559-564, 681-686: the only
    hooks write bytes of the output); it returns the output as it is when the
    closure ends, and the exception it ends with, if any. *)
Record labeldata := LabelData {
  ld_label : str;
  ld_size : Z;
  ld_bits_size : Z;
  ld_relative : Z;
  ld_offset : Z;
  ld_alignment : Z;
  ld_bits : option (Z * Z);
  ld_filter : option (Z -> Z);
  ld_hook : option (Z -> Z -> bytes -> bytes * option exc) }.

(** statements.py:116-119 the dict stored for a label *)
Record label := MkLabel { lb_base : Z; lb_org : Z; lb_section : option str }.

(** assembler.py:762-767 the dict stored for a section; 'end' and 'size' are
    absent until the section is closed. *)
Record section := MkSection {
  sc_start : Z; sc_offset : Z; sc_permissions : str;
  sc_end : option Z; sc_size : option Z }.

(** macros.py:8-17 Macro *)
Record macro := MkMacro { m_args : list str; m_body : list stmt }.

(** assembler.py:73-94 instance attributes.  The attributes of
    subclasses that act as state are added at the end:
    platforms/gameboy.py:28 and nes.py:28 cartridge_set, cpu/x86.py bits, and
    the mutable attributes of the linker object (linker.py:20-36 header,
    relocations). *)
Record st := MkSt {
  assembled : bytes;
  labels : list (str * label);
  current_org : Z;
  current_org_end : Z;
  org_counter : Z;
  labels_addresses : list (Z * labeldata);
  macros : list (str * macro);
  macro_recording : option str;
  repeat_ : option (Z * Z);
  log : bool;
  sections : list (str * section);
  current_section : option str;
  exports : list str;
  defines : list (str * str);
  cartridge_set : bool;
  x86_bits : Z;
  elf_header : bytes;
  relocations : list (Z * labeldata) }.

(** Assignment to or update of assembled_bytes (assembler.py:76, 263-265, 291, 528). *)
Definition set_assembled (s : st) (v : bytes) : st :=
  MkSt v (labels s) (current_org s) (current_org_end s) (org_counter s) (labels_addresses s)
    (macros s) (macro_recording s) (repeat_ s) (log s) (sections s) (current_section s)
    (exports s) (defines s) (cartridge_set s) (x86_bits s) (elf_header s) (relocations s).
(** Assignment to or update of labels (assembler.py:77, statements.py:116). *)
Definition set_labels (s : st) (v : list (str * label)) : st :=
  MkSt (assembled s) v (current_org s) (current_org_end s) (org_counter s) (labels_addresses s)
    (macros s) (macro_recording s) (repeat_ s) (log s) (sections s) (current_section s)
    (exports s) (defines s) (cartridge_set s) (x86_bits s) (elf_header s) (relocations s).
(** Assignment to or update of current_org, current_org_end and org_counter (assembler.py:80-82). *)
Definition set_org (s : st) (o e c : Z) : st :=
  MkSt (assembled s) (labels s) o e c (labels_addresses s)
    (macros s) (macro_recording s) (repeat_ s) (log s) (sections s) (current_section s)
    (exports s) (defines s) (cartridge_set s) (x86_bits s) (elf_header s) (relocations s).
(** Assignment to or update of org_counter (assembler.py:82, 529). *)
Definition set_counter (s : st) (c : Z) : st :=
  set_org s (current_org s) (current_org_end s) c.
(** Assignment to or update of labels_addresses (assembler.py:83, 308). *)
Definition set_labels_addresses (s : st) (v : list (Z * labeldata)) : st :=
  MkSt (assembled s) (labels s) (current_org s) (current_org_end s) (org_counter s) v
    (macros s) (macro_recording s) (repeat_ s) (log s) (sections s) (current_section s)
    (exports s) (defines s) (cartridge_set s) (x86_bits s) (elf_header s) (relocations s).
(** Assignment to or update of macros (assembler.py:84, 177). *)
Definition set_macros (s : st) (v : list (str * macro)) : st :=
  MkSt (assembled s) (labels s) (current_org s) (current_org_end s) (org_counter s)
    (labels_addresses s) v (macro_recording s) (repeat_ s) (log s) (sections s)
    (current_section s) (exports s) (defines s) (cartridge_set s) (x86_bits s) (elf_header s)
    (relocations s).
(** Assignment to or update of macro_recording (assembler.py:85, 173, 182). *)
Definition set_macro_recording (s : st) (v : option str) : st :=
  MkSt (assembled s) (labels s) (current_org s) (current_org_end s) (org_counter s)
    (labels_addresses s) (macros s) v (repeat_ s) (log s) (sections s)
    (current_section s) (exports s) (defines s) (cartridge_set s) (x86_bits s) (elf_header s)
    (relocations s).
(** Assignment to or update of repeat (assembler.py:86, 669, 676). *)
Definition set_repeat (s : st) (v : option (Z * Z)) : st :=
  MkSt (assembled s) (labels s) (current_org s) (current_org_end s) (org_counter s)
    (labels_addresses s) (macros s) (macro_recording s) v (log s) (sections s)
    (current_section s) (exports s) (defines s) (cartridge_set s) (x86_bits s) (elf_header s)
    (relocations s).
(** Assignment to or update of log (assembler.py:87, 584-592). *)
Definition set_log (s : st) (v : bool) : st :=
  MkSt (assembled s) (labels s) (current_org s) (current_org_end s) (org_counter s)
    (labels_addresses s) (macros s) (macro_recording s) (repeat_ s) v (sections s)
    (current_section s) (exports s) (defines s) (cartridge_set s) (x86_bits s) (elf_header s)
    (relocations s).
(** Assignment to or update of sections and current_section (assembler.py:88-89, 207-210, 761-767). *)
Definition set_sections (s : st) (v : list (str * section)) (c : option str) : st :=
  MkSt (assembled s) (labels s) (current_org s) (current_org_end s) (org_counter s)
    (labels_addresses s) (macros s) (macro_recording s) (repeat_ s) (log s) v
    c (exports s) (defines s) (cartridge_set s) (x86_bits s) (elf_header s)
    (relocations s).
(** Assignment to or update of exports (assembler.py:90, 775). *)
Definition set_exports (s : st) (v : list str) : st :=
  MkSt (assembled s) (labels s) (current_org s) (current_org_end s) (org_counter s)
    (labels_addresses s) (macros s) (macro_recording s) (repeat_ s) (log s) (sections s)
    (current_section s) v (defines s) (cartridge_set s) (x86_bits s) (elf_header s)
    (relocations s).
(** Assignment to or update of defines (assembler.py:94, 875). *)
Definition set_defines (s : st) (v : list (str * str)) : st :=
  MkSt (assembled s) (labels s) (current_org s) (current_org_end s) (org_counter s)
    (labels_addresses s) (macros s) (macro_recording s) (repeat_ s) (log s) (sections s)
    (current_section s) (exports s) v (cartridge_set s) (x86_bits s) (elf_header s)
    (relocations s).
(** Assignment to or update of cartridge_set (platforms/gameboy.py:28, 80, platforms/nes.py:28, 54). *)
Definition set_cartridge (s : st) (v : bool) : st :=
  MkSt (assembled s) (labels s) (current_org s) (current_org_end s) (org_counter s)
    (labels_addresses s) (macros s) (macro_recording s) (repeat_ s) (log s) (sections s)
    (current_section s) (exports s) (defines s) v (x86_bits s) (elf_header s)
    (relocations s).
(** Assignment to bits (cpu/x86.py:1996). *)
Definition set_x86_bits (s : st) (v : Z) : st :=
  MkSt (assembled s) (labels s) (current_org s) (current_org_end s) (org_counter s)
    (labels_addresses s) (macros s) (macro_recording s) (repeat_ s) (log s) (sections s)
    (current_section s) (exports s) (defines s) (cartridge_set s) v (elf_header s)
    (relocations s).
(** Assignment to or update of header and relocations of the linker (linker.py:20-36). *)
Definition set_linker (s : st) (h : bytes) (r : list (Z * labeldata)) : st :=
  MkSt (assembled s) (labels s) (current_org s) (current_org_end s) (org_counter s)
    (labels_addresses s) (macros s) (macro_recording s) (repeat_ s) (log s) (sections s)
    (current_section s) (exports s) (defines s) (cartridge_set s) (x86_bits s) h r.

(** assembler.py:73-94 a fresh instance; [defs] is the class attribute defines.
    cpu/x86.py:1989: bits is 64 at first; no other processor has it. *)
Definition init_st (defs : list (str * str)) : st :=
  MkSt [] [] 0 0 0 [] [] None None false [] None [] defs false 64 [] [].

(** assembler.py:293-295 pc *)
Definition pc (s : st) : Z := current_org s + org_counter s.

(** ** The monad: the state survives exceptions, as in Python *)

(** No line of /repo of its own: a Python statement, as a function of the assembler object. *)
Definition M (A : Type) := st -> st * res A.

(** No line of /repo of its own: a value. *)
Definition ret {A} (a : A) : M A := fun s => (s, Ok a).
(** No line of /repo of its own: the raise statement. *)
Definition raise {A} (e : exc) : M A := fun s => (s, Err e).
(** No line of /repo of its own: sequencing of statements. *)
Definition bind {A B} (m : M A) (k : A -> M B) : M B :=
  fun s => match m s with
           | (s', Ok a) => k a s'
           | (s', Err e) => (s', Err e)
           end.
(** No line of /repo of its own: reading attributes of self. *)
Definition get : M st := fun s => (s, Ok s).
(** No line of /repo of its own: assigning attributes of self. *)
Definition modify (f : st -> st) : M unit := fun s => (f s, Ok tt).
(** No line of /repo of its own: calling a function that does not touch self. *)
Definition lift {A} (r : res A) : M A := fun s => (s, r).
(** No line of /repo of its own: raise of an AssemblerException (exceptions.py). *)
Definition araise {A} (e : asmexc) : M A := raise (AExc e).
(** No line of /repo of its own: raise of a builtin exception. *)
Definition praise {A} (e : pyexc) : M A := raise (PExc e).

Notation "'let!' x ':=' m 'in' k" := (bind m (fun x => k))
  (at level 200, x pattern, m at level 100, k at level 200, right associativity).
Notation "m ;; k" := (bind m (fun _ => k)) (at level 199, right associativity).

(** for x in l: f(x); assembler.py:188, 532, 718 *)
Fixpoint iter {A} (f : A -> M unit) (l : list A) : M unit :=
  match l with
  | [] => ret tt
  | a :: t => f a ;; iter f t
  end.

(** for i in range(n): f(); assembler.py:678 *)
Fixpoint times (n : nat) (f : M unit) : M unit :=
  match n with O => ret tt | S n' => f ;; times n' f end.
