(** Model of the ELF linker, necroassembler/linker.py:17-139. *)
From Verif Require Import Py Utils Tokenizer State Assembler.
Local Open Scope Z_scope.

(** linker.py:19-36 the constructor arguments.  [e_64] stands for bits == 64; the only
    other value used is 32.  The attributes header and relocations, which change, are
    kept in the assembler state (elf_header, relocations); entry_point is always 0. *)
Record elf := Elf { e_64 : bool; e_big : bool; e_type : Z; e_machine : Z; e_align : Z }.

Section Elf.
  Context (e : elf).

  (** linker.py:20-24 self.header after construction *)
  Definition elf_ident : res bytes :=
    let? a := pack (e_big e) [FB; FB; FB; FB]
                [if e_64 e then 2 else 1; if e_big e then 2 else 1; 1; 0] in
    let? b := pack (e_big e) [FH; FH; FI] [e_type e; e_machine e; 1] in
    Ok ([127; 69; 76; 70] ++ a ++ repeat 0 8 ++ b).

  (** linker.py:26-33 *)
  Definition section_pack_format : list sfield :=
    if e_64 e then [FI; FI; FQ; FQ; FQ; FQ; FI; FI; FQ; FQ]
    else [FI; FI; FI; FI; FI; FI; FI; FI; FI; FI].
  (** linker.py:29, 33 *)
  Definition section_header_size : Z := if e_64 e then 64 else 40.
  (** linker.py:30, 34 *)
  Definition header_size : Z := if e_64 e then 64 else 52.

  (** linker.py:38-39 *)
  Definition build_null_section : res bytes :=
    pack (e_big e) section_pack_format [0; 0; 0; 0; 0; 0; 0; 0; 0; 0].

  (** linker.py:41-56; [name_offset] is section_data['elf_string_offset'] and
      [file_base] self.file_base.  A section that was never closed has no size. *)
  Definition build_section (file_base name_offset : Z) (sc : section) : res bytes :=
    match sc_size sc with
    | None => Err (PExc KeyError)
    | Some size =>
        let sh_type := if size =? 0 then 8 else 1 in
        let flag c v f := if chr_in c (sc_permissions sc) then Z.lor f v else f in
        let sh_flags := flag "E"%char 4 (flag "X"%char 4 (flag "W"%char 1 (flag "R"%char 2 0))) in
        pack (e_big e) section_pack_format
          [name_offset; sh_type; sh_flags; sc_start sc; file_base + sc_offset sc; size;
           0; 0; e_align e; 0]
    end.

  (** linker.py:58-59 *)
  Definition build_string_section (name_offset offset : Z) (data : bytes) : res bytes :=
    pack (e_big e) section_pack_format [name_offset; 3; 0x20; 0; offset; zlen data; 0; 0; 0; 0].

  (** linker.py:61-62 *)
  Definition build_symtab_section (name_offset offset : Z) (data : bytes) (link : Z) : res bytes :=
    pack (e_big e) section_pack_format
      [name_offset; 2; 0; 0; offset; zlen data; link; 0; 0; if e_64 e then 24 else 16].

  (** linker.py:64-66 *)
  Definition elf_resolve (address : Z) (d : labeldata) : M Z :=
    modify (fun s => set_linker s (elf_header s) (dset Z.eqb (relocations s) address d)) ;;
    ret 0.

  (** linker.py:74-77 and 85-89: names appended to a string table, with the offset
      stored for each (the 'elf_string_offset' keys) *)
  Fixpoint add_names (names : list str) (table : bytes) : list Z * bytes :=
    match names with
    | [] => ([], table)
    | n :: t =>
        let '(offs, table') := add_names t (table ++ encode_utf8 n ++ [0]) in
        (zlen table :: offs, table')
    end.

  (** linker.py:102-104 *)
  Fixpoint build_sections (file_base : Z) (offs : list Z) (l : list (str * section)) : res bytes :=
    match l, offs with
    | (_, sc) :: t, o :: offs' =>
        let? b := build_section file_base o sc in
        let? r := build_sections file_base offs' t in Ok (b ++ r)
    | _, _ => Ok []
    end.

  (** position of a key in a dictionary: section_data['elf_section_index']; linker.py:103, 113, 117 *)
  Fixpoint key_index {V} (l : list (str * V)) (k : str) : option Z :=
    match l with
    | [] => None
    | (k', _) :: t => if str_eqb k k' then Some 0 else
                      match key_index t k with Some i => Some (i + 1) | None => None end
    end.

  (** linker.py:110-118 one symbol *)
  Definition build_symbol (scs : list (str * section)) (name_offset : Z) (l : label) : res bytes :=
    match (match lb_section l with Some k => key_index scs k | None => None end) with
    | None => Err (PExc KeyError)
    | Some i =>
        if e_64 e then
          pack (e_big e) [FI; FB; FB; FH; FQ; FQ] [name_offset; 0x10; 0; i + 1; lb_base l; 0]
        else
          pack (e_big e) [FI; FI; FI; FB; FB; FH] [name_offset; lb_base l; 0; 0x10; 0; i + 1]
    end.

  (** linker.py:106-118 *)
  Fixpoint build_symtab (scs : list (str * section)) (offs : list Z) (l : list (str * label))
    : res bytes :=
    match l, offs with
    | (_, lb) :: t, o :: offs' =>
        let? b := build_symbol scs o lb in
        let? r := build_symtab scs offs' t in Ok (b ++ r)
    | _, _ => Ok []
    end.

  (** linker.py:86-87, 108-109: the labels not skipped *)
  Definition exported (s : st) : list (str * label) :=
    filter (fun '(n, _) => str_in n (exports s)) (labels s).

  (** linker.py:131-138: the rest of the header *)
  Definition build_header (n : Z) : res bytes :=
    pack (e_big e)
      (if e_64 e then [FQ; FQ; FQ; FI; FH; FH; FH; FH; FH; FH]
       else [FI; FI; FI; FI; FH; FH; FH; FH; FH; FH])
      [0; 0; header_size; 0; header_size; 0; 0; section_header_size; n + 4; n + 1].

  (** linker.py:71-139 link *)
  Definition elf_link_bytes (s : st) : res (bytes * bytes) :=
    let scs := sections s in
    let n := zlen scs in
    let '(offs, shstr) := add_names (map fst scs) [0] in
    let shstr_name := zlen shstr in
    let shstr := shstr ++ encode_utf8 #".shstrtab" ++ [0] in
    let syms := exported s in
    let '(soffs, strtab) := add_names (map fst syms) [0] in
    let strtab_name := zlen shstr in
    let shstr := shstr ++ encode_utf8 #".strtab" ++ [0] in
    let symtab_name := zlen shstr in
    let shstr := shstr ++ encode_utf8 #".symtab" ++ [0] in
    let file_base := header_size + section_header_size * (n + 4) in
    let? null := build_null_section in
    let? secs := build_sections file_base offs scs in
    let? symtab := build_symtab scs soffs syms in
    let code_size := zlen (assembled s) in
    let? h1 := build_string_section shstr_name (file_base + code_size) shstr in
    let? h2 := build_string_section strtab_name (file_base + code_size + zlen shstr) strtab in
    let? h3 := build_symtab_section symtab_name
                 (file_base + code_size + zlen shstr + zlen strtab) symtab (n + 2) in
    let? hd := build_header n in
    let header := elf_header s ++ hd in
    Ok (header, header ++ (null ++ secs ++ h1 ++ h2 ++ h3) ++ assembled s ++ shstr ++ strtab ++ symtab).

  (** linker.py:71-139 link *)
  Definition elf_link : M bytes :=
    let! s := get in
    let! r := lift (elf_link_bytes s) in
    let '(header, out) := r in
    modify (fun s => set_linker s header (relocations s)) ;; ret out.

  (** linker.py:64-139: the class as the argument of link() *)
  Definition elf_linker : linker := Linker elf_resolve elf_link.
End Elf.

(** platforms/i386_elf32.py:6, x86_64_elf64.py:6, ppc_elf32.py:6 *)
Definition i386_elf32 : elf := Elf false false 1 3 0.
(** platforms/x86_64_elf64.py:6 *)
Definition x86_64_elf64 : elf := Elf true false 1 0x3E 0.
(** platforms/ppc_elf32.py:6 *)
Definition ppc_elf32 : elf := Elf false true 1 0x14 4.
