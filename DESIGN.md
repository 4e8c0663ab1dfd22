# Design of the Rocq model of necroassembler

## Approach

The Python code is modelled function by function as total, computable Gallina
functions over a state record that mirrors `Assembler` instance attributes.

* Python exceptions are values (`AExc` for subclasses of `AssemblerException`,
  `PExc` for builtin exceptions).  A state monad `M A := st -> st * res A` keeps
  the state also when an exception is raised, because Python keeps the
  mutations made before a `raise`.
* Python `int` is `Z` (`&`, `|`, `>>`, `<<` are `Z.land`, `Z.lor`, `Z.shiftr`,
  `Z.shiftl`; `//` and `%` are `Z.div` and `Z.modulo`, with division by zero an
  exception value).
* Python `str` is a list of 8-bit characters (source files are assumed ASCII
  for `upper`, `isdigit`, `int`; other characters are opaque).
* `bytes`/`bytearray` is `list Z`; that every element is in 0..255 is a theorem
  (C17), not an assumption.
* A Python `dict` is an association list in insertion order with
  "replace in place or append" update, since iteration order is observable.
* Recursion of macros and includes carries fuel; running out of fuel is the
  exception value `RecursionError` (Python has the same failure).  Theorems
  quantify over every fuel.
* Opcode tables are parameters of the framework model; each CPU then
  instantiates them.  An opcode is either static bytes or a handler, which is
  an arbitrary state transformer (theorems state what they require of it; C39
  shows that all shipped processors meet it).

Specifications (`Spec*.v`) are relations or small functions in the vocabulary
of the user (values of digit strings, byte intervals, fields of an ELF header,
opcode matrices of the processor manuals, positions of pixels), and the theorems
in `Props*.v` relate runs of the model to them.  They name the model's entry
points (`assemble`, `link`, `tokenize`, the state) because those are what is
specified.  Some also use model functions, and are independent of the model only
as far as these are specified elsewhere: `parse_integer` (SpecCpu, SpecExec,
SpecParse; specified by C05-C07), `label_absolute`/`label_relative` (SpecByte,
SpecLink, SpecMos; specified by C07), `to_str_hook` (SpecLink, SpecPlace) and
`opcode_assemble`/`statement_assemble` (SpecMacro, SpecExec; C14 compares a macro
call with the same opcodes run one by one).

Each property has at least one `Example` with a concrete case, beside its theorem.
In `Cases*.v` every theorem that has hypotheses is moreover applied to concrete
arguments, with each hypothesis proved for them (`Cxx_name_case`).  Theorems with
no case there have no hypotheses, or only the bounds on numbers their statements
show.

Properties that turned out false for the code as it is are stated in their
true, restricted form, and the unrestricted form is refuted by a theorem whose
name ends in `_refuted`; these are listed under Findings.

## Files (all under `rocq/theories`)

| file | content |
|---|---|
| `Py.v` | Python primitives: results, strings, `int()`, formatting, dictionaries, `struct` |
| `Utils.v`, `Tokenizer.v`, `State.v`, `Assembler.v` | `utils.py`; `tokenizer.py`; assembler state, monad, `LabelData`, `Macro`; `assembler.py`, `statements.py`, `macros.py`, link with `linker.Dummy` |
| `Elf.v` | `linker.ELF` |
| `Instr.v` | `Instruction.match` and helpers shared by the CPU modules |
| `Mos6502.v`, `Mips32.v`, `Thumb.v`, `Lr35902.v`, `Z80.v`, `Mc68000.v`, `I8086.v`, `Ppc.v`, `X86.v` | `cpu/mos6502.py`, `cpu/mips32.py`, `cpu/thumb.py`, `cpu/lr35902.py`, `cpu/z80.py`, `cpu/mc68000.py`, `cpu/intel8086.py`, `cpu/powerpc.py`, `cpu/x86.py` |
| `Platform.v` | `platforms/gameboy.py`, `nes.py`, `sms.py`, `genesis.py`, `gba.py`, `psx.py`, and `Assembler.main` |
| `ElfPlat.v` | `platforms/i386_elf32.py`, `ppc_elf32.py`, `x86_64_elf64.py` |
| `Report.v` | the same runs with the texts of their errors and what they print |
| `SpecUtils.v` … `SpecSpare.v` | independent specifications used in theorem statements |
| `PyFacts.v`, `UtilsFacts.v`, `ParseFacts.v`, `TokFacts.v`, `SubstFacts.v`, `DigitFacts.v` | proofs about values, parsing, tokens |
| `Events.v`, `ExecFacts.v` | invariants of the statement executor, by induction on fuel and statements |
| `LinkFacts.v`, `ElfFacts.v`, `SimFacts.v`, `SimExec.v`, `MacroFacts.v` | linking; ELF; runs that agree up to line numbers or logging; macro expansion |
| `CpuFacts.v`, `WordFacts.v`, `MosFacts.v`, `MipsFacts.v`, `ThumbFacts.v`, `LrFacts.v`, `LrEnc.v`, `Z80Facts.v`, `Z80Enc.v`, `M68Lex.v`, `M68Facts.v`, `M68Ops.v`, `M68Names.v`, `M68Link.v`, `I86Sem.v`, `I86Check.v`, `I86Facts.v`, `I86Rows.v`, `I86Read.v`, `I86Enc.v`, `I86Link.v`, `PpcFacts.v`, `PpcEnc.v`, `PpcLink.v`, `X86Facts.v`, `X86Enc.v`, `X86Link.v` | encodings |
| `FitFacts.v`, `FitInstr.v`, `FitMos.v`, `FitMips.v`, `FitThumb.v`, `FitLr.v`, `FitZ80.v`, `FitM68.v`, `FitI86.v`, `FitPpc.v`, `FitX86.v` | handlers only return bytes and record references |
| `PlaceFacts.v`, `LabelMono.v`, `WordLink.v`, `ByteLink.v` | where references lie, and what one instruction is after linking the whole program |
| `PlatFacts.v`, `TileFacts.v`, `CartFacts.v`, `ConsoleFacts.v` | platforms |
| `ReportFacts.v`, `TellFacts.v`, `ReprFacts.v` | texts and printed lines; they can be read back |
| `StopFacts.v` | how linking fails |
| `Demo.v`, `Reach.v` | a small demonstration processor and tactics for examples |
| `Props*.v` | the theorems named in MANIFEST.json, examples, `Print Assumptions` |
| `Cases*.v` | the theorems applied to concrete programs, with all their hypotheses proved |

## Properties: what is modelled and how it is proved

* **C01, C02** packers (`utils.pack*`).  Model of `struct.pack` with its range
  check; independent reader (sum of byte * 256^i); induction on the width.
* **C03** `pack_bits`; specification by `Z.testbit`, induction on the fields.
* **C04, C05** `in_bit_range*`, `parse_integer`; interval equivalences by
  `Z.land_ones`, case analysis on the parser.
* **C06** literals; independent relation `literal` between notations and values,
  `accepts` for ranges; induction on digit lists.
* **C07, C08** `apply_math_formula`, labels in formulas; abstract syntax of
  formulas with printer and left-to-right evaluator; parser/printer theorem;
  any fuel >= 1 gives the same result, so evaluation always ends.
* **C09–C12** tokenizer; a grammar of source texts, soundness and completeness
  (`C11_grammar`, `C11_grammar_complete`); layout, quoting and composition are
  consequences; the only failure is a misplaced colon.
* **C13** `substitute_with_dict`; split in maximal runs, map, concatenate.
* **C14** macros; relation `expands` from a call to the list of opcode
  instructions; simulation between the in-place token mutation and pure
  expansion.
* **C15–C17, C30–C32, C35** invariants of every history of assemble/link calls,
  for failing runs as well, by induction on fuel and statement list; for
  arbitrary plug-ins that keep the invariant.
* **C18–C21** equations for the directives in every state; blocks of statements
  for `.org` regions and `.repeat`.
* **C22–C26** induction on the reference table; fields as byte intervals;
  C26 by permutation of the table.
* **C27** from the grammar and a simulation up to line numbers.
* **C28, C29** the executor for arbitrary handlers.  Which entry a name stands for is
  shown by induction over the registrations, and for the documented directive names by
  computing the table of each shipped assembler (PropsNames.v).
* **C33, C34** reading the produced file with an independent ELF reader (offset,
  width, endianness).
* **C36–C38** 6502: manual as a table (opcode, mnemonic, mode); acceptance is an
  equivalence; branches and zero page stated for the linked image of any
  program the instruction occurs in.
* **C39** each processor's handlers satisfy `fits` (return bytes, record
  references, change nothing else) and `neat` (references lie inside the
  instruction and do not overlap), for all nine CPU modules; `C39_frame` and the
  others are the framework theorems for every fitting processor.
* **C40, C41, C50** MIPS32: word formats by bit fields; address halves;
  branches and jumps in the linked image.
* **C42, C43, C51** Thumb: halfword formats; BL pair; branches and loads.
* **C44, C56** LR35902 and Z80: the manual is generated from the regularities of
  the opcode matrix (register numbers, pages, prefixes), the handlers are shown
  to depend on operands only through finitely many classes of words, and the
  comparison over representatives of the classes is computed in the kernel;
  operands are covered for all values by proof.  Linked forms and relative
  jumps as for the 6502.
* **C45, C46, C52** checksums, as sums over the image by the published rule;
  C45 for the whole program (the header survives everything that follows);
  C46 for every fitting processor and for the 68000.
* **C47, C54, C55** the written files, byte by byte.
* **C48** tile converters; decoding by the hardware layout gives back the
  pixels, for every picture; rejection of all others.
* **C49** every recorded reference of a program lies in the bytes of its own
  statement (invariant `tidy`), so linking changes exactly these.
* **C53** the scripts: what is written exactly when.
* **C57** instructions of consoles and processors coincide.
* **C58–C60** 68000: a relation `form` from mnemonic and operands to the words of
  the instruction, once in the strict syntax of the manual and once with what is
  also let through; soundness and completeness of the matcher against it, by
  case analysis on the operand texts.  A word is a fixed value or
  a slot (width, sign, base of a distance), and one theorem about slots gives the
  linked image of every instruction.
* **C61–C63** 8086: the specification is a decoder from machine code to mnemonic
  and operands; the notation of operands is a relation, shown to be unambiguous.
  The operand functions are natural in the texts of values, so an entry of the
  opcode table needs to be compared with the decoder only for one
  representative of each class of operands (computed in the kernel), and the
  result is carried to all texts.  Which instructions are offered is a list of
  mnemonics and operand kinds, compared with the table the same way; that the
  first entry that matches decides is part of the comparison.
* **C64–C66** PowerPC: the specification is a list of words with the fields of
  their operands.  Every entry of the opcode table, and every instruction of the
  list, is compared with the other side by computation in the kernel; the words
  for all operand texts follow by induction on the fields, which are disjoint.
  `goes` decodes a branch; its target is the label rounded down to a multiple of
  four if the branch itself is at one.  C65 is for at most one name per
  instruction [C65_two_names_refuted].
* **C67–C69** x86: a list of instructions with the form of their machine code, and
  a relation from written operands to bytes that depends on the mode.  For each
  listed instruction the entry of the opcode table that is taken is computed in
  the kernel from the kinds of the operands only; the bytes for all registers and
  values follow from the packers.  Linking as for the 8086.
* **C70** invariant of every history (as C30-C32), equation for the directive.
* **C71** the scripts of `i386_elf32.py`, `ppc_elf32.py` and `x86_64_elf64.py`:
  equation for the script, then C31, C33 and C34 with the processors of C39.  A flat
  link of the same state is compared by an induction over the references showing
  that the flat link never looks at the linker's own data.
* **C72** the simulation of C27 between the included run and the pasted one, with the
  end-of-file actions shown idle without a bounded origin.  **C73** a run that does not
  end in RecursionError is the same at every greater depth (induction on the depth);
  the self-including file by induction on the depth.
* **C74–C76** induction over cells, elements and operands; the values are those that
  C05/C06 describe.  CSV and JSON syntax is not modelled: the readers' results are
  part of the environment.
* **C77** the reference of C75 placed in a whole program by C49, read back with C22;
  the bytes after the digits lie outside every reference field.
* **C78** an invariant of every run on a console (`carted`, in ConsoleFacts): a header is
  placed only while the output is short, and bytes are changed only inside a header that
  is in place; so an instruction assembled anywhere keeps its bytes, and C37, C38, C44
  and C56 apply to it (through `sits`, the part of C49 they need).  The Game Boy link is
  the processor's link followed by the checksums (C45).
* **C79** `Report.v` repeats the run with the texts of exceptions and the printed lines
  beside it; a simulation shows that the run is the same (C79_faithful).  The file of an
  instruction in a macro body is kept beside the state, as `Assembler.v` has only its
  line.  Which `raise` has the statement is a table by exception and directive; that it
  covers every raise is proved.  The wording of handlers is a parameter.  That places
  can be read back is injectivity of repr and of decimals (`ReprFacts.v`).
  **C80** induction over the statements; the output only grows (C16).
* **C81** two runs on hosts with different files, related step by step: every step but
  opening a file is the same (`HostFacts.v`, once for both relations).  That no handler
  reads files holds because the opcode tables are the same on both hosts.
* **C82** two runs, one with further labels, related step by step: expressions that were
  read stay as they are (`parse_more`), only a label statement can notice.  Each handler
  of the processors is shown not to notice (`CalmCpu.v`), except those of the 6502, for
  which the statement is false while assembling [C82_zero_page_refuted].  There a run
  that differs has recorded a reference to one of the new labels (`CalmMos.v`); it stays
  recorded, as references never move (C49), so linking would have failed.
* **C83** two runs with other definitions and macros, related step by step: substitution
  in a token only looks at its words (`tokens_same`), a call only at the first one.  What
  a macro body or a loop puts in the program consists of words of the program.  That no
  handler looks at definitions or macros is shown for every shipped assembler
  (`SpareCpu.v`).  A word inside a quoted string counts as a word (see C13).

## Findings

Disagreements between the code and the expected property; names in brackets
are theorems.

Framework
* Directives inside a macro body take effect once, where the macro is defined,
  and are not part of it [C14_directives_refuted].
* A macro that uses itself through an argument never ends
  [C14_self_use_refuted]; after a failed call the body keeps the substituted
  tokens [C14_failed_call_refuted]; too few arguments raise a raw IndexError
  [C28_macro_arguments_refuted].
* `.goto` compares its target with the length of the output but pads from the
  program counter [C19_goto_refuted] (`.upto`, by reading, makes the same
  comparison and pads from the origin counter); `.align 0` raises
  ZeroDivisionError [C19_align_zero_refuted].
* Padding at the end of a bounded origin misses the last byte when exactly one
  is free [C20_last_byte_refuted]; overflow is not reported
  [C20_overflow_refuted]; the padding happens at the end of each assemble()
  call, so assembling in pieces differs [C27_bounded_refuted], and at the end of an
  included file, so `.include` differs from pasting [C72_bounded_refuted].
* Missing files raise a raw OSError [C72_missing, C74_missing].  A JSON integer
  outside a byte raises a raw ValueError where the same number in a string is
  wrapped [C74_negative_refuted].
* `.dw "text"` and `.dd "text"` emit a byte-order mark and are little-endian on
  big-endian processors too [C75_wide_refuted]; `.dw_to_ascii "12"` always fails
  [C75_quoted_refuted]; decimal text of a label is padded with zeros, of a number
  not [C75_padding_refuted]; characters outside ASCII in `.db` raise a raw
  UnicodeEncodeError [C75_db_rejected].
* A second `.define` of a name replaces its old *value* everywhere instead of the
  name [C76_redefine_refuted].
* References inside `.repeat` are resolved in the first copy only
  [C21_references_refuted].
* `.db_to_ascii`/`.dw_to_ascii` of wide values overwrite what follows
  [C22_text_width_refuted].
* Operands that start with a number and mention a later label fail
  [C26_numeric_head_refuted]; `-5+3` is read as a label
  [C07_negative_head_refuted]; the character literal of an operator raises
  IndexError [C06_operator_character_refuted].
* Names are substituted inside string literals [C13_string_literals_refuted] and
  before mnemonics are looked up, with regard to case [C29_defines_refuted].
* An empty string literal yields no token [C10_empty_literal_refuted]; an
  unterminated one drops its statement silently [C10_unterminated_refuted].
* The errors about numbers, names in formulas and origins in directives do not say
  where they occurred, and a misplaced colon does not say in which file
  [C79_placeless_refuted].
* An unclosed `.macro` swallows the rest of the program and an unclosed `.repeat` emits
  its body once, without an error [C30_unclosed_refuted].
* Numbers may have underscores and a second prefix [C06_lenient_refuted]; malformed
  ones in directives, and a lone colon, raise builtin exceptions
  [C28_directive_refuted].
* A reference relative to address 0 is treated as absolute [C66_start_refuted].
* By reading, not stated as theorems: link() ORs into the placeholder bytes (see
  C22_field); text hooks skip alignment and range checks; a section with the empty name
  is never closed.

ELF: no null symbol [C34_null_symbol_refuted]; symbol values are offsets from
the origin, not from the section [C34_value_refuted]; undefined names become 0
without relocation in the file [C34_undefined_refuted], although the linker has noted
exactly these references [C34_noted]; an exported label outside sections
raises KeyError [C34_no_section_refuted]; linking twice appends the header
twice [C33_relink_refuted].

6502: words after a branch target are ignored [C36_trailing_refuted]; backward
displacements in hexadecimal are rejected [C36_displacement_refuted]; forward
references to zero page labels are not shortened, and refused where only the
short form exists [C38_forward_refuted]; so a label more can change the size of an
instruction [C82_zero_page_refuted].

MIPS32: sub subu or xor nor mult multu div divu are always rejected
[C40_refused_refuted]; sltu sltiu jalr are encoded otherwise
[C40_deviating_refuted]; `lui $8, 0x1234` loads 0, as a 16 bit operand is
not taken as the upper half [C41_lui_refuted]; misaligned branch targets and
jumps to another 256 MB region are encoded silently wrong
[C50_unreachable_refuted].

Thumb: several documented forms are rejected or encoded otherwise
[C42_refused_refuted, C42_deviating_refuted, C42_offset_refuted], PUSH with LR
sets bit 11 instead of bit 8 [C42_push_lr_refuted]; `BL 0` is taken for a label
[C43_zero_refuted]; a load from a label behind becomes one from far ahead
[C51_backward_refuted].

LR35902: stores of A to addresses 0, $, + and F become the store to port C
[C44_store_refuted]; `LD A,($FF00+C)` unknown [C44_load_refuted]; (H) and (L)
accepted for (HL) [C44_shift_refuted]; BRA and extra words accepted
[C44_extra_refuted]; `sp-n` in
small letters is taken for a label [C44_case_refuted].

Z80: `LD A,(IX+d)` and `LD (IX+d),A` become absolute [C56_index_refuted];
`LD (IX+d),n` loses d [C56_immediate_refuted]; `BIT n,(IX+d)` has an
undocumented code [C56_bit_refuted]; `EX AF,AF'` silently drops itself and the
rest of the file [C56_exchange_refuted]; `RST 8` rejected
[C56_restart_refuted].

68000: text after the operands is ignored and `JMP (A0)+` assembles as `JMP (A0)`
[C58_trailing_refuted]; `JMP -(A0)` jumps to a label `-` [C58_decrement_refuted];
`DBF.W` and `DBT.W` are never accepted [C58_loop_size_refuted]; one letter of CCR,
SR or PC stands for the whole [C58_letter_refuted]; an index register in capitals
needs a size [C58_index_refuted]; illegal instructions accepted
[C58_illegal_refuted]; a short branch to the next instruction becomes a long one
for the processor [C60_next_refuted].

8086: `[BP]` gets the code of a direct address without the address
[C61_bp_refuted]; a name as displacement overwrites the mod r/m byte
[C61_displacement_refuted], as does the name in LES and LDS
[C61_far_pointer_refuted]; `MOV [..],n` and `POP [..]` emit no mod r/m byte
[C61_store_refuted]; AAM and AAD lose their second byte [C61_adjust_refuted];
shifts ignore the count, whatever it is [C61_shift_refuted]; direct addresses above 255
are rejected with the accumulator [C61_address_refuted]; `[BX+SI]` without
blanks is a name [C61_spaces_refuted]; far jumps cannot be written
[C61_far_refuted].

PowerPC: BCTR, BCTRL and MFTB get the wrong word [C64_deviating_refuted]; loads
and stores with a displacement, compares with fields, rotates, moves to and from
special registers by number (MFSPR, MTSPR), and BT/BF are never accepted
[C64_missing_refuted], nor is r0 where only a register is possible
[C64_zero_refuted]; R4 in capitals is a name where a number is
expected [C64_upper_refuted]; of two names in one instruction only the last is
linked [C65_two_names_refuted]; the reach of branches is a quarter of that of the
processor [C66_reach_refuted]; numbers as targets count words, labels bytes
[C66_units_refuted]; labels that are not at a multiple of four are rounded
[C66_unaligned_refuted].

x86 [C67_findings_refuted]: 64-bit registers are encoded as 32-bit ones (no REX
prefix), registers of different sizes can be mixed; CMP, TEST, INC, NOT, XCHG and
others, and the immediate forms with another register than the accumulator, emit
no mod r/m byte; instructions of two and three bytes without operands (CPUID, SYSCALL,
RDTSC, x87) emit one byte of them, in every state [C67_torn_refuted,
C67_blank_refuted]; LGDT and LIDT become SGDT; addresses use the 16-bit register
codes in every mode; a name as displacement overwrites the mod r/m byte; byte
operands, INT, LOOP and shifts are not accepted; words after the operands are
ignored.  Backward jumps in 32- and 64-bit mode go 2^16 bytes too far and a
reference after REP is one byte early [C69_backward_refuted]; `.bits` alone raises
IndexError [C70_bare_refuted].

Platforms: linking twice breaks the Game Boy global checksum
[C45_again_refuted]; with a bounded origin in force `.cartridge` may put the header
elsewhere [C45_place_refuted], and a missing one goes unnoticed
[C45_missing_refuted], the checksums being written over whatever is there
[C78_checksum_refuted]; NES bank counts are written one byte too far
[C55_banks_refuted]; the PSX stack pointer is stored at the wrong offset
[C47_stack_refuted]; the file of an empty PSX program ends inside the header
[C47_empty_refuted].

## Trusted base

* The Coq 8.16.1 kernel, its VM (`vm_compute` in examples, refutations and the
  finite table comparisons) and `coqchk`.
* The manual translation from Python to Gallina; model definitions cite
  the lines they model; helpers without a counterpart (the monad, fuel) say so.
* The models of the Python builtins in `Py.v` (`int`, `str.upper`, `isdigit`,
  `struct.pack`, `format`, dictionaries).
* The specifications of the processors and file formats, written from their
  manuals.
* No axioms: `Print Assumptions` is run for every property theorem and answers
  "Closed under the global context".

Modelled: `utils.py`, `tokenizer.py`, `statements.py`, `macros.py`,
`assembler.py` (all directives), `linker.py`, the CPU modules and platforms in
the table above.

## Not modelled

Message texts of exceptions other than those of C79 (handlers, linking, builtin
exceptions), the output of command line tools, memory exhaustion and the host
file system (files are a read-only map; a written file is a value), Python's
identity of integers and strings.  The function `_s_middle` of `mc68000.py`, which
nothing calls, and `_1` of `intel8086.py`, which no table entry uses.
`platforms/mz.py`, which defines no script and only rebinds `intel8086._Ap` after the
opcode table has been built with the original.
