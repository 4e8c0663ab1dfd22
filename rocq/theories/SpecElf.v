(** A reader for ELF files, after the System V ABI: headers, section contents, string
    and symbol tables. *)
From Verif Require Import Py State SpecUtils SpecLink.
Local Open Scope Z_scope.

Section Reader.
  Context (is64 be : bool) (file : bytes).

  (** The n-byte number at an offset. *)
  Definition word (off n : Z) : Z := read_value be (slice off n file).

  Definition e_shoff : Z := if is64 then word 40 8 else word 32 4.
  Definition e_ehsize : Z := if is64 then word 52 2 else word 40 2.
  Definition e_shentsize : Z := if is64 then word 58 2 else word 46 2.
  Definition e_shnum : Z := if is64 then word 60 2 else word 48 2.
  Definition e_shstrndx : Z := if is64 then word 62 2 else word 50 2.

  Record shdr := Shdr {
    sh_name : Z; sh_type : Z; sh_flags : Z; sh_addr : Z; sh_offset : Z; sh_size : Z;
    sh_link : Z; sh_info : Z; sh_addralign : Z; sh_entsize : Z }.

  Definition shdr_at (a : Z) : shdr :=
    if is64 then
      Shdr (word a 4) (word (a + 4) 4) (word (a + 8) 8) (word (a + 16) 8) (word (a + 24) 8)
        (word (a + 32) 8) (word (a + 40) 4) (word (a + 44) 4) (word (a + 48) 8) (word (a + 56) 8)
    else
      Shdr (word a 4) (word (a + 4) 4) (word (a + 8) 4) (word (a + 12) 4) (word (a + 16) 4)
        (word (a + 20) 4) (word (a + 24) 4) (word (a + 28) 4) (word (a + 32) 4) (word (a + 36) 4).

  (** Section header k, found through the file header. *)
  Definition shdr_nth (k : Z) : shdr := shdr_at (e_shoff + k * e_shentsize).
  (** The bytes of a section. *)
  Definition content (h : shdr) : bytes := slice (sh_offset h) (sh_size h) file.

  Record sym := Sym {
    sy_name : Z; sy_value : Z; sy_size : Z; sy_info : Z; sy_other : Z; sy_shndx : Z }.
  Definition sym_at (a : Z) : sym :=
    if is64 then Sym (word a 4) (word (a + 8) 8) (word (a + 16) 8) (word (a + 4) 1)
                   (word (a + 5) 1) (word (a + 6) 2)
    else Sym (word a 4) (word (a + 4) 4) (word (a + 8) 4) (word (a + 12) 1)
           (word (a + 13) 1) (word (a + 14) 2).
  (** Entry j of the symbol table with header h. *)
  Definition sym_nth (h : shdr) (j : Z) : sym := sym_at (sh_offset h + j * sh_entsize h).
End Reader.

(** A string table holds a name, ended by a zero byte, at an offset. *)
Definition name_at (table : bytes) (off : Z) (name : str) : Prop :=
  slice off (zlen (encode_utf8 name) + 1) table = encode_utf8 name ++ [0].

(** Permission flags: allocate, write, execute. *)
Definition flags_of (permissions : str) (flags : Z) : Prop :=
  (Z.testbit flags 1 = true <-> In "R"%char permissions) /\
  (Z.testbit flags 0 = true <-> In "W"%char permissions) /\
  (Z.testbit flags 2 = true <-> In "X"%char permissions \/ In "E"%char permissions) /\
  0 <= flags < 8.

(** The labels that are exported. *)
Definition exported_labels (s : st) : list (str * label) :=
  filter (fun x => str_in (fst x) (exports s)) (labels s).
