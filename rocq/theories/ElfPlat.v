(** Models of necroassembler/platforms/i386_elf32.py, ppc_elf32.py and x86_64_elf64.py *)
From Verif Require Import Py Utils Tokenizer State Assembler Elf I8086 Ppc X86 Platform.
Local Open Scope Z_scope.

(** assembler.py:877-893 main with an ELF linker, made before with its header (linker.py:19-36;
    i386_elf32.py:5-7, ppc_elf32.py:5-7, x86_64_elf64.py:5-7).  Its attributes are part of the state of
    the model (Elf.v); assembling does not use them, so they are put there before linking.
    [args] is sys.argv[1:]. *)
Definition elf_main (c : cfg) (e : elf) (fuel : nat) (args : list str) : script :=
  match elf_ident e with
  | Err er => ([], Err er)
  | Ok h =>
      match rev args with
      | [] => ([], Ok tt)
      | destination :: sources =>
          match (iter (assemble_file c fuel) (rev sources) ;;
                 modify (fun s => set_linker s h []) ;; link c (elf_linker e)) (init_st []) with
          | (s, Ok _) => (save s destination, Ok tt)
          | (_, Err er) => ([], Err er)
          end
      end
  end.
(** i386_elf32.py:5-11 *)
Definition i386_main (v : env) : nat -> list str -> script := elf_main (i8086 v) i386_elf32.
(** ppc_elf32.py:5-11 *)
Definition ppc_main (v : env) : nat -> list str -> script := elf_main (powerpc v) ppc_elf32.
(** x86_64_elf64.py:5-11 *)
Definition x86_64_main (v : env) : nat -> list str -> script := elf_main (x86 v) x86_64_elf64.
