{"id": "C01", "title": "Unsigned packing keeps exactly the low bits", "statement": "Packing integers with any of the unsigned packers (byte, le16, le32, le64, be16, be32) never fails and yields, per argument, exactly width/8 bytes which read back, in the stated byte order, as the argument modulo 2^width (a missing argument reads back as 0).", "quantifier": "every integer, of any sign and magnitude, every number of arguments", "why_tests_cant": "The integers are unbounded; a test can only sample a few values and never shows that no value raises or decodes wrongly.", "anchors": ["necroassembler/utils.py:pack_byte", "necroassembler/utils.py:pack_le16u", "necroassembler/utils.py:pack_le32u", "necroassembler/utils.py:pack_le64u", "necroassembler/utils.py:pack_be16u", "necroassembler/utils.py:pack_be32u"]}
{"id": "C02", "title": "Signed packing is total and two's complement", "statement": "The signed packers (8s, le16s, le32s, le64s, be16s, be32s) never raise, and the bytes read back as the unique value in [-2^(w-1), 2^(w-1)) congruent to the argument modulo 2^w.", "quantifier": "every integer and every number of arguments", "why_tests_cant": "The claim that struct.pack can never overflow after the sign correction ranges over all integers.", "anchors": ["necroassembler/utils.py:neg_fix", "necroassembler/utils.py:pack_8s", "necroassembler/utils.py:pack_le16s", "necroassembler/utils.py:pack_le32s", "necroassembler/utils.py:pack_le64s", "necroassembler/utils.py:pack_be16s", "necroassembler/utils.py:pack_be32s"]}
{"id": "C03", "title": "Bit-field packing is exact", "statement": "pack_bits(base, fields...) succeeds iff every field has end >= start and a value in [-2^(n-1), 2^n) for its width n; on success every bit inside a field is the base bit OR-ed with the two's complement bit of the value and every bit outside all fields equals the base bit. In particular disjoint fields over a zero background read back exactly.", "quantifier": "every base, every list of fields, every value", "why_tests_cant": "Field overlap, sign handling and boundary values form an unbounded space.", "anchors": ["necroassembler/utils.py:pack_bits", "necroassembler/utils.py:pack_bit", "necroassembler/utils.py:in_bit_range"]}
{"id": "C04", "title": "Bit-range predicates are exact intervals", "statement": "in_bit_range(v,n) is true iff 0 <= v < 2^n; in_bit_range_decimal(v,n,signed) is true iff -2^(n-1) <= v < 2^(n-1) when signed and -2^(n-1) <= v < 2^n when not.", "quantifier": "every integer v and every width n >= 1", "why_tests_cant": "An off-by-one at a boundary of some width is invisible to sampled tests.", "anchors": ["necroassembler/utils.py:in_bit_range", "necroassembler/utils.py:in_bit_range_decimal"]}
{"id": "C05", "title": "Accepted integers always fit the requested width", "statement": "Whenever the integer parser returns a value for a width and signedness, that value fits: unsigned results are in [0,2^n); signed decimal results are in [-2^(n-1),2^(n-1)); signed non-decimal results are in [0,2^n). So an operand can never be silently truncated by the packers that follow.", "quantifier": "every token text, every number-syntax configuration, every label table, every width and signedness", "why_tests_cant": "Tokens are arbitrary strings including formulas; range safety must hold for all of them.", "anchors": ["necroassembler/assembler.py:Assembler.parse_integer", "necroassembler/assembler.py:Assembler._internal_parse_integer"]}
{"id": "C06", "title": "Integer literals round-trip", "statement": "For every non-negative n and every configured notation (hex/bin/oct/dec prefix, digit-only suffix forms, plain decimal, and negative decimal), writing n in that notation and parsing it returns n when it fits the width, and raises NotInBitRange when it does not; an 8-bit character literal yields its code. An empty suffix in a table marks no number: leaving it out changes nothing.", "quantifier": "every natural number, every width, every configured prefix or suffix", "why_tests_cant": "Infinitely many literals; base conversion bugs can hide at any length.", "anchors": ["necroassembler/assembler.py:Assembler._internal_parse_integer", "necroassembler/assembler.py:Assembler.parse_integer"]}
{"id": "C07", "title": "Formulas evaluate strictly left to right", "statement": "For a token made of leading < and > operators, an operand, and a chain of + - * / & | operators, the value is obtained by first applying the byte-selection operators, then folding the chain left to right with no precedence, floor division, and an omitted argument meaning 1; an unknown name in the chain raises UnknownLabel.", "quantifier": "every operator chain of any length, every operand, every label table", "why_tests_cant": "Chains have unbounded length; precedence and sign-of-division errors show only on particular combinations.", "anchors": ["necroassembler/assembler.py:Assembler._get_math_formula", "necroassembler/assembler.py:Assembler.apply_math_formula", "necroassembler/assembler.py:Assembler.parse_integer", "necroassembler/assembler.py:Assembler.get_label_absolute_address_by_name"]}
{"id": "C08", "title": "Formula evaluation always terminates", "statement": "Evaluating any token (as an integer, or as a label reference) terminates with at most two nested levels of evaluation, whatever the text, and depends on the label table only through the addresses of the labels.", "quantifier": "every token text, every configuration, every label table", "why_tests_cant": "Termination of mutually recursive evaluation over arbitrary text is not testable.", "anchors": ["necroassembler/assembler.py:Assembler.apply_math_formula", "necroassembler/assembler.py:Assembler.parse_integer", "necroassembler/assembler.py:Assembler.get_label_absolute_address_by_name"]}
{"id": "C09", "title": "Layout of a source line does not matter", "statement": "Replacing any separator run between tokens by any other non-empty run of spaces, tabs and commas, adding leading/trailing separators, adding a comment after a semicolon, or dropping the final newline does not change the statements produced.", "quantifier": "every list of plain tokens, every separator run, every comment text", "why_tests_cant": "The space of layouts is infinite.", "anchors": ["necroassembler/tokenizer.py:Tokenizer.parse", "necroassembler/tokenizer.py:Tokenizer._state_token", "necroassembler/tokenizer.py:Tokenizer._token_spaces", "necroassembler/tokenizer.py:Tokenizer._state_comment"]}
{"id": "C10", "title": "Quoted literals round-trip", "statement": "Any non-empty text (including separators, quotes, colons, semicolons, newlines and backslashes) written between quotes with quote and backslash characters escaped comes back as one token holding exactly that text; in .db it is emitted as exactly its ASCII bytes.", "quantifier": "every non-empty text", "why_tests_cant": "Escaping interacts with every other tokenizer state; only a proof covers all texts.", "anchors": ["necroassembler/tokenizer.py:Tokenizer._state_string", "necroassembler/tokenizer.py:Tokenizer._state_escaped_string", "necroassembler/tokenizer.py:Tokenizer._state_char", "necroassembler/assembler.py:Assembler.directive_db"]}
{"id": "C11", "title": "Tokenization is compositional and tracks lines", "statement": "If the tokenizer is between statements at a newline, tokenizing text a + newline + b gives the statements of a followed by the statements of b with line numbers shifted by the number of newlines in a plus one; every statement reports the number of the line holding its terminator.", "quantifier": "every pair of source texts", "why_tests_cant": "Quantifies over all pairs of texts.", "anchors": ["necroassembler/tokenizer.py:Tokenizer.parse", "necroassembler/tokenizer.py:Tokenizer.step"]}
{"id": "C12", "title": "A malformed label aborts before anything happens", "statement": "A colon preceded on the same statement by another token makes assemble() raise and leave the whole assembler state unchanged, because the text is tokenized completely first; no other input makes the tokenizer fail.", "quantifier": "every source text and every assembler state", "why_tests_cant": "Atomicity over every state and every text.", "anchors": ["necroassembler/tokenizer.py:Tokenizer._token_colon", "necroassembler/assembler.py:Assembler.assemble"]}
{"id": "C13", "title": "Define substitution replaces exactly whole names", "statement": "Substitution replaces a token that is a defined name, and otherwise each maximal run of name characters that is a defined name, by its value, in one pass; every other character is preserved, the number of tokens is preserved, tokens before the start index are untouched, and text mentioning no defined name is unchanged.", "quantifier": "every token list, every define table", "why_tests_cant": "Maximal-run replacement over arbitrary strings; partial-name capture bugs show only on particular texts.", "anchors": ["necroassembler/utils.py:substitute_with_dict", "necroassembler/utils.py:is_valid_name"]}
{"id": "C14", "title": "Macro invocation is textual expansion and leaves the macro intact", "statement": "Invoking a recorded macro whose body, expanded through other macros, comes down to opcode instructions has the same effect on the assembler as assembling these, in order, with parameters replaced by arguments; if one of them fails the call fails with the same error. After a successful call the macro definition is exactly what it was, so later calls behave the same. (Directives written between .macro and .endmacro are not part of the macro: they take effect where it is defined.)", "quantifier": "every macro body, arguments, assembler state, opcode table and nesting of macro calls", "why_tests_cant": "Ranges over all bodies and histories of invocations; aliasing of token lists is a history property.", "anchors": ["necroassembler/macros.py:Macro.assemble", "necroassembler/statements.py:Instruction.assemble"]}
{"id": "C15", "title": "Labels are write-once and name the address of definition", "statement": "A label gets the program counter at the point of its definition; once defined no later statement, directive, macro, include or link changes or removes it; defining it again raises LabelAlreadyDefined and changes nothing; names that parse as numbers or contain other characters are rejected.", "quantifier": "every source text, every sequence of further assembly calls", "why_tests_cant": "Invariant over all execution histories.", "anchors": ["necroassembler/statements.py:Label.assemble", "necroassembler/assembler.py:Assembler.assemble", "necroassembler/assembler.py:Assembler.link"]}
{"id": "C16", "title": "Assembly only appends", "statement": "Assembling any text, successfully or not, never modifies or removes bytes already emitted: the old output is a prefix of the new output. Without .org the program counter advances by exactly the number of bytes emitted plus the .ram reservations.", "quantifier": "every source text, every state, every opcode table whose entries only return bytes", "why_tests_cant": "A property of all execution histories including failing ones.", "anchors": ["necroassembler/assembler.py:Assembler.append_assembled_bytes", "necroassembler/assembler.py:Assembler.assemble", "necroassembler/assembler.py:Assembler.change_org"]}
{"id": "C17", "title": "Output is always a byte sequence", "statement": "In every reachable state every element of the output is in 0..255, including after linking.", "quantifier": "every source text, history and link", "why_tests_cant": "Invariant over all reachable states.", "anchors": ["necroassembler/assembler.py:Assembler.append_assembled_bytes", "necroassembler/assembler.py:Assembler._resolve_labels"]}
{"id": "C18", "title": "Data directives emit exactly their operands", "statement": ".db/.dw/.dd with literals that fit emit each operand in 1/2/4 bytes in the configured byte order; operands that do not fit raise; the program counter advances by the same amount.", "quantifier": "every list of operand values, both byte orders, every state", "why_tests_cant": "Quantifies over all operand lists and states.", "anchors": ["necroassembler/assembler.py:Assembler.directive_db", "necroassembler/assembler.py:Assembler.directive_dw", "necroassembler/assembler.py:Assembler.directive_dd"]}
{"id": "C19", "title": "Padding directives reach exactly the requested position", "statement": ".fill n emits exactly n bytes of the value; after .align n (n > 0) the program counter is the least multiple of n not below the old one; .goto and .upto with a target not below the length of the output pad up to the target if it is ahead and emit nothing otherwise, and raise without effect for a target below the length of the output; .ram n moves the program counter by n without output; names instead of numbers are rejected without effect.", "quantifier": "every state and every operand value", "why_tests_cant": "All program counters and operands.", "anchors": ["necroassembler/assembler.py:Assembler.directive_fill", "necroassembler/assembler.py:Assembler.directive_goto", "necroassembler/assembler.py:Assembler.directive_upto", "necroassembler/assembler.py:Assembler.directive_align", "necroassembler/assembler.py:Assembler.directive_ram"]}
{"id": "C20", "title": "Bounded origins are padded to their end and never overlap", "statement": ".org a e starts an empty region at a. If the block that fills it neither moves the origin nor reserves memory, a following .org b with a < b, not below the current position, pads it up to b or the end of the region, whichever comes first, so that a region that did not overflow occupies exactly min(b, e+1)-a bytes; an origin below the current position of a bounded region is rejected without output; at the end of assemble() an open region with at least two free bytes is padded to its end, a full or overflowed one is left alone.", "quantifier": "every region content and every pair of bounds", "why_tests_cant": "All bounds and contents, including off-by-one positions.", "anchors": ["necroassembler/assembler.py:Assembler.change_org", "necroassembler/assembler.py:Assembler.assemble"]}
{"id": "C21", "title": ".repeat n emits exactly n copies", "statement": "For every block of statements without nested brackets, the bytes appended by .repeat n / block / .endrepeat (n >= 1) are n copies of the bytes the block appends when executed once, nothing else of the state is affected by the repetition, and if the block moves no origin and reserves nothing the program counter advances by n times as much. Nested .repeat and unmatched .endrepeat raise without effect.", "quantifier": "every n >= 1, every block, every state", "why_tests_cant": "Unbounded n and block contents.", "anchors": ["necroassembler/assembler.py:Assembler.directive_repeat", "necroassembler/assembler.py:Assembler.directive_end_repeat"]}
{"id": "C22", "title": "Linking patches exactly the reference fields", "statement": "After a successful link, every recorded reference field that shares no byte with another (C49: after assembly none does) reads back, in the configured byte order, as the field before linking OR the address computed for its label, every byte outside all reference fields is unchanged, and so is the output length; references that resolve inside the output always link. A label written as decimal text of w digits is exactly its w digits if it has no more.", "quantifier": "every set of references and labels, every output, both byte orders, any iteration order", "why_tests_cant": "Frame property over all outputs and all reference sets.", "anchors": ["necroassembler/assembler.py:Assembler._resolve_labels", "necroassembler/assembler.py:Assembler.link"]}
{"id": "C23", "title": "Linking never truncates silently", "statement": "If link succeeds then for every reference without a text hook the label value is aligned as requested, is in [0,2^n) for absolute references and in [-2^(n-1),2^(n-1)) for relative ones; when a reference violates this, link raises the corresponding error. Link fails exactly when some reference has such a fault, an undefined name, failing arithmetic or a field outside the output, with the error of the first such reference.", "quantifier": "every reference, label table and width", "why_tests_cant": "All distances between reference and label.", "anchors": ["necroassembler/assembler.py:Assembler._resolve_labels"]}
{"id": "C24", "title": "Linking twice equals linking once", "statement": "With the default linker and no passes, linking an already linked image again succeeds and changes nothing.", "quantifier": "every linkable state", "why_tests_cant": "Idempotence over all states.", "anchors": ["necroassembler/assembler.py:Assembler.link", "necroassembler/assembler.py:Assembler._resolve_labels"]}
{"id": "C25", "title": "Undefined labels are always reported", "statement": "With the default linker, if any recorded reference names, at its head or after an operator, a label that is not defined, link raises; if link succeeds every referenced label is defined.", "quantifier": "every state", "why_tests_cant": "Needs all reference tables.", "anchors": ["necroassembler/linker.py:Dummy.resolve_unknown_symbol", "necroassembler/assembler.py:Assembler._resolve_labels"]}
{"id": "C26", "title": "Forward and backward references resolve alike", "statement": "The linked image depends on the references only as a set and on the label table only through the addresses: neither the order in which references were recorded nor the order of definitions matters; and whether an operand is recorded as a reference does not depend on the labels known so far.", "quantifier": "every permutation of the reference table and every label table", "why_tests_cant": "All orders.", "anchors": ["necroassembler/assembler.py:Assembler._resolve_labels", "necroassembler/assembler.py:Assembler.add_label_translation"]}
{"id": "C27", "title": "Assembling in pieces equals assembling the concatenation", "statement": "If text a leaves the tokenizer between statements and the current origin is unbounded after a, assemble(a) then assemble(b) leaves the same state as assemble(a + newline + b), up to line numbers.", "quantifier": "every pair of texts and every state", "why_tests_cant": "All splits of all programs.", "anchors": ["necroassembler/assembler.py:Assembler.assemble", "necroassembler/tokenizer.py:Tokenizer.parse"]}
{"id": "C28", "title": "Instruction failures are always AssemblerExceptions", "statement": "Whatever the handler of an opcode does (raise anything, or return nothing), assembling the instruction either appends exactly the bytes it returned or raises an AssemblerException and appends nothing; static opcodes with operands and unknown mnemonics are rejected. Only macro calls can raise a builtin exception, and then only IndexError or RecursionError.", "quantifier": "every handler behaviour, every token list, every state", "why_tests_cant": "Handlers are arbitrary code.", "anchors": ["necroassembler/statements.py:Instruction.assemble"]}
{"id": "C29", "title": "Mnemonic, directive and macro names are case-insensitive", "statement": "Changing the letter case of the first token of an instruction that no define mentions, or of a directive name, never changes the result (for tables that are not case-sensitive and handlers that do not look at the case of their mnemonic). A name stands for the entry registered last under it, up to letter case or, in a case-sensitive assembler, exactly; in every supported assembler each documented directive name calls its directive.", "quantifier": "every case variation, every state and opcode table", "why_tests_cant": "All spellings.", "anchors": ["necroassembler/statements.py:Instruction.assemble", "necroassembler/statements.py:Directive.assemble", "necroassembler/assembler.py:Assembler.register_instruction", "necroassembler/assembler.py:Assembler.register_directive"]}
{"id": "C30", "title": "Macro and repeat modes are well bracketed", "statement": "Nested .macro/.repeat and unmatched .endmacro/.endrepeat raise and leave the state unchanged; while recording a macro, instructions emit nothing and are appended to the macro; labels are rejected while recording.", "quantifier": "every state", "why_tests_cant": "All histories.", "anchors": ["necroassembler/assembler.py:Assembler.macro_start", "necroassembler/assembler.py:Assembler.macro_end", "necroassembler/assembler.py:Assembler.directive_repeat", "necroassembler/assembler.py:Assembler.directive_end_repeat"]}
{"id": "C31", "title": "Sections tile the output", "statement": "After a successful assemble in which no section has the empty name, the sections in definition order are contiguous: the first starts where it was declared, each next section starts where the previous ends, and the last ends at the end of the output; sizes are never negative.", "quantifier": "every program with any number of sections", "why_tests_cant": "Invariant over all histories.", "anchors": ["necroassembler/assembler.py:Assembler.directive_section", "necroassembler/assembler.py:Assembler.assemble"]}
{"id": "C32", "title": "Section and export names are unique", "statement": "No reachable state has two sections with one name or a symbol exported twice; redeclaring raises and keeps the earlier entry.", "quantifier": "every program", "why_tests_cant": "Invariant over all histories.", "anchors": ["necroassembler/assembler.py:Assembler.directive_section", "necroassembler/assembler.py:Assembler.directive_export"]}
{"id": "C33", "title": "ELF layout is self-consistent", "statement": "For both classes and byte orders, the file produced by the ELF linker has length header + 40/64*(n+4) + code + tables; the header locates the section header table; each section header locates exactly the bytes of its section, and the last three locate .shstrtab, .strtab and .symtab.", "quantifier": "every code, every list of sections, labels and exports", "why_tests_cant": "All section counts and sizes.", "anchors": ["necroassembler/linker.py:ELF.link", "necroassembler/linker.py:ELF._build_section", "necroassembler/linker.py:ELF._build_string_section", "necroassembler/linker.py:ELF._build_symtab_section"]}
{"id": "C34", "title": "ELF names and symbols resolve", "statement": "The name offset in each section header and each symbol entry points at that name followed by NUL in the string table; each symbol entry carries the offset of the label from its origin and the index of the header of its section; exactly the exported labels appear, in order. After linking, the linker has noted exactly the references to undefined names, each under its place in the output.", "quantifier": "every label table, export list and section list", "why_tests_cant": "All tables.", "anchors": ["necroassembler/linker.py:ELF.link"]}
{"id": "C35", "title": "Logging does not influence the result", "statement": "Turning logging on or off changes nothing but the log flag.", "quantifier": "every program and state", "why_tests_cant": "Non-interference over all programs.", "anchors": ["necroassembler/assembler.py:Assembler.directive_log", "necroassembler/assembler.py:Assembler.assemble"]}
{"id": "C36", "title": "6502 encodings agree with the instruction set", "statement": "An instruction is accepted exactly if its operands are written in a form of the 6502 (words after the target of a branch are ignored) and the manual has an opcode for the mnemonic in that mode; the emitted bytes are that opcode followed by the operand little-endian, names being recorded as references.", "quantifier": "every mnemonic, mode, operand value, state", "why_tests_cant": "151 opcodes x all operand values.", "anchors": ["necroassembler/cpu/mos6502.py:AssemblerMOS6502"]}
{"id": "C37", "title": "6502 branches land on their label", "statement": "If a branch to a label links, the byte placed after the opcode is the displacement such that pc+2+displacement is the label address; targets outside -128..127 raise.", "quantifier": "every branch mnemonic, branch position and label position", "why_tests_cant": "All distances.", "anchors": ["necroassembler/cpu/mos6502.py:AssemblerMOS6502._branch", "necroassembler/assembler.py:Assembler._resolve_labels"]}
{"id": "C38", "title": "6502 zero-page selection is sound", "statement": "An address operand ends up in the linked image in the short form exactly if the instruction has one and the address was known, where the instruction was assembled, to lie in 0..255; otherwise in the absolute form. Either way the bytes are those of the address the operand denotes in the whole program, and the length never changes after assembly.", "quantifier": "every operand, label table and mnemonic", "why_tests_cant": "All operand forms.", "anchors": ["necroassembler/cpu/mos6502.py:AssemblerMOS6502._manage_address"]}
{"id": "C39", "title": "Every shipped opcode table fits the framework", "statement": "For each supported CPU, every opcode handler only returns bytes and records references: it never alters output, labels, program counter, defines, macros or sections; so C14-C17 and C27-C29 hold for the CPU.", "quantifier": "every instruction text and every state, for each CPU", "why_tests_cant": "All handlers on all token lists.", "anchors": ["necroassembler/cpu/mos6502.py", "necroassembler/cpu/mips32.py", "necroassembler/cpu/thumb.py", "necroassembler/cpu/lr35902.py", "necroassembler/cpu/z80.py", "necroassembler/cpu/intel8086.py", "necroassembler/cpu/mc68000.py", "necroassembler/cpu/powerpc.py", "necroassembler/cpu/x86.py"]}
{"id": "C40", "title": "MIPS32 encodings agree with the instruction set", "statement": "Every instruction of the manual, other than the nine the assembler always rejects (sub subu or xor nor mult multu div divu) and the three it encodes otherwise (sltu sltiu jalr), assembles exactly when its operands are registers and values of its format, and then to the word the manual assigns, in the byte order of the assembler; other mnemonics are rejected.", "quantifier": "every mnemonic, register combination, operand, state, both byte orders", "why_tests_cant": "All operand combinations.", "anchors": ["necroassembler/cpu/mips32.py:AssemblerMIPS32"]}
{"id": "C41", "title": "MIPS32 hi/lo halves recombine", "statement": "Upper-half (lui, lhi) and lower-half (llo) instructions naming the same 32-bit value, a literal or a label, hold after linking the high and the low 16 bits of that one value.", "quantifier": "every 32-bit value, every label and every program around them", "why_tests_cant": "2^32 values.", "anchors": ["necroassembler/cpu/mips32.py:AssemblerMIPS32"]}
{"id": "C42", "title": "Thumb encodings agree with the instruction set", "statement": "Apart from the forms listed as findings (forms always rejected, forms encoded otherwise, misaligned or negative word offsets, lr in PUSH), a Thumb instruction assembles exactly when its operands have the documented shape and range, and then to the halfword of the manual; a register list gives the mask of exactly its registers.", "quantifier": "every mnemonic, operand list and state with a non-negative program counter", "why_tests_cant": "All operand combinations.", "anchors": ["necroassembler/cpu/thumb.py:AssemblerThumb"]}
{"id": "C43", "title": "Thumb calls land on their label", "statement": "The two halfwords of a BL that links recombine to the address of its label; a label outside pc+4 +- 4 MB or at an odd address makes linking fail; a numeric non-zero even displacement below 4 MB is stored as it is.", "quantifier": "every program around the call, every label address and displacement", "why_tests_cant": "2^21 distances at every pc.", "anchors": ["necroassembler/cpu/thumb.py:AssemblerThumb"]}
{"id": "C44", "title": "LR35902 encodings agree with the instruction set", "statement": "Apart from a few listed notations, an instruction of the Game Boy CPU is accepted exactly if the manual has a form with that mnemonic and those operands; the form is then unique, the emitted bytes are its opcode and operand, and in the linked image names stand by their address. A relative jump lands on its label or does not link.", "quantifier": "every mnemonic, operand list, state and program", "why_tests_cant": "500 opcodes x operands.", "anchors": ["necroassembler/cpu/lr35902.py:AssemblerLR35902"]}
{"id": "C45", "title": "Game Boy ROMs carry a valid header", "statement": "Every link() of the Game Boy assembler that succeeds leaves a header checksum the boot ROM accepts and otherwise changes only the two global checksum bytes. If the program passes through .cartridge (in an unbounded origin or at $100), the linked ROM also has the entry jump and logo at $100 and, when linked once, the global checksum of the documentation.", "quantifier": "every program, every state", "why_tests_cant": "All images and all programs around the header.", "anchors": ["necroassembler/platforms/gameboy.py:AssemblerGameboy"]}
{"id": "C46", "title": "Genesis checksum is valid", "statement": "The Genesis script writes exactly one file, which is the linked image with the word at $18E replaced by the 16-bit sum of the big-endian words from $200 on; it succeeds exactly if the image reaches past $18F and, when longer than $200, has even length.", "quantifier": "every program", "why_tests_cant": "All images.", "anchors": ["necroassembler/platforms/genesis.py"]}
{"id": "C47", "title": "PSX executables are sector-aligned with a consistent header", "statement": "For a program that is not empty, the produced file is a 2048-byte header plus the program padded to a multiple of 2048, and the header records the magic, the load address, the entry and the padded size.", "quantifier": "every program", "why_tests_cant": "All sizes.", "anchors": ["necroassembler/platforms/psx.py"]}
{"id": "C48", "title": "Tile converters are lossless", "statement": "The tile directives of Game Boy, NES and Master System accept exactly the indexed images of legal dimensions and colours, and decoding the emitted planar bytes by the hardware layout gives back every pixel.", "quantifier": "every image", "why_tests_cant": "All images.", "anchors": ["necroassembler/platforms/gameboy.py:AssemblerGameboy", "necroassembler/platforms/nes.py:AssemblerNES", "necroassembler/platforms/sms.py:AssemblerSegaMasterSystem"]}
{"id": "C49", "title": "References never share bytes and linking disturbs nothing else", "statement": "After any successful assembly every recorded reference has bytes of its own inside the output; hence after link() the bytes of each statement are those it emitted, except that each of its reference fields holds the value of that reference, whatever the rest of the program is.", "quantifier": "every program, every processor whose handlers place references inside the instruction", "why_tests_cant": "Depends on all pairs of statements of a program.", "anchors": ["necroassembler/assembler.py:Assembler._resolve_labels", "necroassembler/assembler.py:Assembler.add_label_translation"]}
{"id": "C50", "title": "MIPS branches and jumps land on their label", "statement": "A branch to a label that links holds the signed word displacement from the next instruction that leads to the label when it lies a whole number of words away; a label beyond 128 KB makes linking fail. A jump holds the word index that leads to the label when that is a multiple of four in the same 256 MB region.", "quantifier": "every branch and jump mnemonic, every program around it, both byte orders", "why_tests_cant": "All distances and positions.", "anchors": ["necroassembler/cpu/mips32.py:AssemblerMIPS32"]}
{"id": "C51", "title": "Thumb branches and PC-relative loads reach their label", "statement": "A conditional or unconditional branch that links lands on its label, and one out of reach or misaligned does not link; LDR rd,[pc,#label] that links with a label ahead reads the word at the label.", "quantifier": "every branch mnemonic and load register, every program around it", "why_tests_cant": "All distances and positions.", "anchors": ["necroassembler/cpu/thumb.py:AssemblerThumb"]}
{"id": "C52", "title": "GBA header checksum is valid", "statement": "The GBA script writes exactly one file, the linked image with the byte at $BD replaced so that the header bytes $A0..$BD and $19 sum to zero; it succeeds for every image reaching past $BD.", "quantifier": "every program", "why_tests_cant": "All images.", "anchors": ["necroassembler/platforms/gba.py"]}
{"id": "C53", "title": "The command line writes the linked image or nothing", "statement": "Given sources and a destination, a program is written exactly if all sources assemble in order and link, and then the destination holds exactly the linked image; a failed run writes no file (Genesis, GBA and PSX scripts included).", "quantifier": "every list of sources and every program", "why_tests_cant": "All programs and failures.", "anchors": ["necroassembler/assembler.py:main", "necroassembler/platforms/genesis.py", "necroassembler/platforms/gba.py", "necroassembler/platforms/psx.py"]}
{"id": "C54", "title": "NES symbol files list exactly the labels", "statement": "The NES script writes beside the ROM two symbol files, holding one line per label with an address in $8000..$FFFF, respectively 0..$7FF, in definition order, each giving the address of the label in hexadecimal.", "quantifier": "every program that assembles and links", "why_tests_cant": "All label tables.", "anchors": ["necroassembler/platforms/nes.py:main"]}
{"id": "C55", "title": "The iNES header opens the file", "statement": ".cartridge is accepted exactly when nothing has been assembled yet, writes the sixteen header bytes and moves the location counter by sixteen; elsewhere it raises and changes nothing.", "quantifier": "every state", "why_tests_cant": "All histories.", "anchors": ["necroassembler/platforms/nes.py:AssemblerNES"]}
{"id": "C56", "title": "Z80 encodings agree with the instruction set", "statement": "Apart from a few listed notations (the ones with (IX+d) that the table gets wrong), an instruction of the Z80 is accepted exactly if the manual has a form with that mnemonic and those operands; the form is then unique, the emitted bytes are its opcode, operand and trailing code, and in the linked image names stand by their address. A relative jump lands on its label or does not link.", "quantifier": "every mnemonic, operand list, state and program", "why_tests_cant": "800 forms x operands.", "anchors": ["necroassembler/cpu/z80.py:AssemblerZ80", "necroassembler/cpu/z80.py:Z80OpCode"]}
{"id": "C57", "title": "Console assemblers encode like their processors", "statement": "In the Game Boy, NES and Master System assemblers an instruction has exactly the effect it has in the assembler of the processor, the names of the machine being replaced by their addresses first.", "quantifier": "every instruction, every state", "why_tests_cant": "All instructions in all states.", "anchors": ["necroassembler/platforms/gameboy.py:AssemblerGameboy", "necroassembler/platforms/nes.py:AssemblerNES", "necroassembler/platforms/sms.py:AssemblerSegaMasterSystem"]}
{"id": "C58", "title": "68000 instructions have the encodings of the manual", "statement": "For every instruction the 68000 assembler knows, written as in the manual, in any state: it is assembled exactly if its numbers fit their places, to the operation word (size, modes and registers of both operands) followed by the extension words of the source and then of the destination, each number in its place and each name recorded as a reference to its place; these bytes do not depend on how the text is read. Conversely an accepted text is one of these forms or one of the listed laxities (text after the operands, single letters of CCR, SR and PC).", "quantifier": "every instruction, every operand in every addressing mode, every state", "why_tests_cant": "12 x 9 modes of MOVE alone, times sizes, registers and values.", "anchors": ["necroassembler/cpu/mc68000.py:AssemblerMC68000"]}
{"id": "C59", "title": "Linked 68000 instructions carry addresses and distances", "statement": "In the linked image of any program the bytes of a 68000 instruction are the operation word and the extension words with every name replaced by its final address (checked against the width of its place) or, relative to the program counter, by its distance from that extension word.", "quantifier": "every program, every instruction in it", "why_tests_cant": "All programs with forward and backward names.", "anchors": ["necroassembler/cpu/mc68000.py:AssemblerMC68000", "necroassembler/assembler.py:link"]}
{"id": "C60", "title": "68000 branches land on their label", "statement": "A conditional branch, a loop instruction or a program counter relative operand naming a label of the program either reaches it, i.e. the displacement sign-extended from its width plus the base defined by the processor is the address of the label (an even one for branches and loops), or the program does not link.", "quantifier": "every program, every relative operand", "why_tests_cant": "All distances, in both directions.", "anchors": ["necroassembler/cpu/mc68000.py:AssemblerMC68000", "necroassembler/assembler.py:link"]}
{"id": "C61", "title": "8086 instructions decode to what was written", "statement": "For every instruction offered by the 8086 assembler (a list of mnemonics with operand kinds), in any state, apart from [BP] without displacement, names used as displacements and LES/LDS with a name: there are machine code bytes and at most one trailing value which the decoder of the manual reads as that mnemonic with those operands, and the instruction is accepted exactly if the value fits its place, emitting those bytes and recording a reference for a name. The words of an instruction have only one reading as operands. Conversely every accepted text in that notation is offered or is one of the listed deviations (words after the operands, immediate values stored in memory, POP of memory, moves to CS, AAM/AAD, shifts without count, jumps to memory).", "quantifier": "every mnemonic, operand list, value and state", "why_tests_cant": "All registers x addressing modes x values.", "anchors": ["necroassembler/cpu/intel8086.py:AssemblerIntel8086"]}
{"id": "C62", "title": "Linked 8086 instructions decode to what was written", "statement": "In the linked image of any program the bytes of such an instruction are machine code that decodes to the mnemonic and operands written, each name being replaced by its final address (checked against the width of its place) or by its distance from the next instruction.", "quantifier": "every program, every instruction in it", "why_tests_cant": "All programs with forward and backward names.", "anchors": ["necroassembler/cpu/intel8086.py:AssemblerIntel8086", "necroassembler/assembler.py:link"]}
{"id": "C63", "title": "8086 jumps land on their label", "statement": "A conditional jump, loop, CALL or JMP naming a label of the program either reaches it, i.e. the address of the next instruction plus the sign-extended distance in the linked bytes is the address of the label, or the program does not link.", "quantifier": "every program, every jump", "why_tests_cant": "All distances, in both directions.", "anchors": ["necroassembler/cpu/intel8086.py:AssemblerIntel8086", "necroassembler/assembler.py:link"]}
{"id": "C64", "title": "PowerPC instructions are the words of the manual", "statement": "For every instruction name, operand list and state: the statement is accepted exactly if the manual lists the name with operands of these kinds (numbers within the width of their field, registers r0..r31/f0..f31, r0 only where the digit 0 is allowed) and then emits the 32-bit word of the manual, big-endian, with every operand in its bits, recording a reference for each name; the manual leaves no choice; everything else is an assembler error. (Apart from BCTR, BCTRL without conditions and MFTB; loads and stores with displacements, compares with fields and rotates are not accepted at all.)", "quantifier": "every name, operand list, value and state", "why_tests_cant": "About 500 forms x registers x values.", "anchors": ["necroassembler/cpu/powerpc.py:AssemblerPowerPC"]}
{"id": "C65", "title": "Linked PowerPC instructions are the words of the manual", "statement": "In the linked image of any program, an instruction with at most one name among its operands is the word of the manual with the final address of the name in its field, a quarter of the address for absolute branches, a quarter of the distance for relative ones; addresses and distances outside their field do not link.", "quantifier": "every program, every instruction in it", "why_tests_cant": "All programs with forward and backward names.", "anchors": ["necroassembler/cpu/powerpc.py:AssemblerPowerPC", "necroassembler/assembler.py:link"]}
{"id": "C66", "title": "PowerPC branches reach their label", "statement": "A relative or absolute branch at a multiple of four, with a label as its only name, either transfers control, by the decoding of the processor, to the label (rounded down to a multiple of four), or the program does not link.", "quantifier": "every program, every branch", "why_tests_cant": "All distances, in both directions.", "anchors": ["necroassembler/cpu/powerpc.py:AssemblerPowerPC", "necroassembler/assembler.py:link"]}
{"id": "C67", "title": "x86 instructions are the machine code of the manual", "statement": "In 16-, 32- and 64-bit mode, an instruction of the list (ADD OR ADC SBB AND SUB XOR MOV with 16 and 32 bit registers, memory in 16-bit mode, accumulator and MOV immediates, control registers, LEA, PUSH/POP, CMOVcc, Jcc, CALL, JMP, BTx, CMPXCHG, BSF, BSR, BSWAP, the string and one-byte instructions with REP prefixes) with legal operands is accepted and emits machine code that the manual gives for it: operand size prefix, opcode, mod r/m, displacement or immediate, with a reference for a name.", "quantifier": "every listed instruction, operand text, mode and state", "why_tests_cant": "Mnemonics x registers x address combinations x values x three modes.", "anchors": ["necroassembler/cpu/x86.py:AssemblerX86"]}
{"id": "C68", "title": "Linked x86 instructions are the machine code of the manual", "statement": "In the linked image of any program, an instruction of the list is the code of the manual with the final address of the name as immediate value, or its distance from the next instruction; addresses and distances outside their field do not link. (Of a distance in 32- and 64-bit mode only the lower half is stored.)", "quantifier": "every program, every listed instruction in it", "why_tests_cant": "All programs with forward and backward names.", "anchors": ["necroassembler/cpu/x86.py:AssemblerX86", "necroassembler/assembler.py:link"]}
{"id": "C69", "title": "x86 jumps land on their label", "statement": "A jump or call naming a label either reaches it, i.e. the address of the next instruction plus the sign-extended distance in the linked bytes is the address of the label, or the program does not link: for all jumps in 16-bit mode, for forward jumps in 32- and 64-bit mode.", "quantifier": "every program, every jump", "why_tests_cant": "All distances, in both directions.", "anchors": ["necroassembler/cpu/x86.py:AssemblerX86", "necroassembler/assembler.py:link"]}
{"id": "C70", "title": "The x86 mode is always 16, 32 or 64", "statement": "Whatever is assembled and linked, with failures or without, the mode is 16, 32 or 64; .bits is accepted exactly with a number that is one of them, sets the mode and changes nothing else.", "quantifier": "every history of assemble and link calls, every operand", "why_tests_cant": "All operand texts and all programs.", "anchors": ["necroassembler/cpu/x86.py:AssemblerX86"]}
{"id": "C71", "title": "The ELF scripts write the linked program", "statement": "Run with source files and a destination, the scripts for i386, PowerPC and x86-64 write exactly one file, the destination, if all sources assemble and the whole links, and none otherwise. The file is a relocatable ELF of the class, byte order and machine number of the platform; after its headers come, if all names are known, the bytes that the same program gives as a flat image, and every section of the sources is in the section table with its name, address, permissions and exactly its bytes.", "quantifier": "every set of files, every list of sources and destination, all sections", "why_tests_cant": "All programs for three processors, any number of sources and sections.", "anchors": ["necroassembler/platforms/i386_elf32.py:main", "necroassembler/platforms/ppc_elf32.py:main", "necroassembler/platforms/x86_64_elf64.py:main", "necroassembler/linker.py:ELF"]}
{"id": "C72", "title": ".include behaves like the text of the file", "statement": "Replacing a line .include by the text of the file changes neither output, labels, references, sections nor errors, if both are complete texts and the file leaves no bounded origin in force; a file that cannot be opened stops assembly before anything happens.", "quantifier": "every text before and after, every file, every state, every opcode table", "why_tests_cant": "All pairs of files and including programs, all states in which the include is reached.", "anchors": ["necroassembler/assembler.py:directive_include", "necroassembler/assembler.py:assemble"]}
{"id": "C73", "title": "Nesting depth does not matter, endless nesting is an error", "statement": "The depth to which includes and macro calls may nest does not influence the result of a program that stays within it, and a file that begins with including itself is rejected at every depth, with nothing emitted.", "quantifier": "every depth, every program", "why_tests_cant": "No finite number of depths and programs covers the claim; the endless case cannot be run without a bound.", "anchors": ["necroassembler/assembler.py:directive_include", "necroassembler/statements.py:Instruction"]}
{"id": "C74", "title": "Included data is embedded exactly", "statement": ".incbin emits exactly the bytes of the file; .inccsv and .inccsv_le16 the values of all cells, row by row, as bytes or little-endian words; .incjson one byte per element of the list reached through the dotted key (per key if it is an object, per character if it is a string). If the file cannot be opened, the key leads nowhere, or a cell or element is not a number of the width, the directive fails and nothing is emitted.", "quantifier": "every file content, every key path, every state", "why_tests_cant": "All contents of files of four formats.", "anchors": ["necroassembler/assembler.py:directive_incbin", "necroassembler/assembler.py:directive_inccsv", "necroassembler/assembler.py:directive_inccsv_le16", "necroassembler/assembler.py:directive_incjson"]}
{"id": "C75", "title": "Strings and decimal text are emitted exactly", "statement": ".db emits the characters of strings and the values of numbers in order; .dw and .dd emit a string as a byte-order mark and its characters in little-endian units of their width; .db_to_ascii and .dw_to_ascii emit numbers in decimal without leading zeros, and for a name as many bytes as a label may have digits (3 and 5) with a reference that is written in decimal when linking; the variants with z append a NUL.", "quantifier": "every list of operands, every state", "why_tests_cant": "All strings and numbers in all orders.", "anchors": ["necroassembler/assembler.py:directive_db", "necroassembler/assembler.py:directive_dw", "necroassembler/assembler.py:directive_dd", "necroassembler/assembler.py:directive_db_to_ascii", "necroassembler/assembler.py:directive_dw_to_ascii"]}
{"id": "C76", "title": ".define changes one name and nothing else", "statement": ".define with two operands maps the first to the second, both as they read at that point, leaves all other names and the rest of the assembler as they were, and is rejected without effect with any other number of operands.", "quantifier": "every pair of operands, every state", "why_tests_cant": "All names, values and earlier defines.", "anchors": ["necroassembler/assembler.py:directive_define"]}
{"id": "C77", "title": "Decimal text of a label holds its address after linking", "statement": "After a program that assembled and links, the bytes of a .db_to_ascii or .dw_to_ascii directive (with or without z) whose operand is a name are, in the linked image, exactly the 3 or 5 decimal digits of the address of that name in the whole program, padded with leading zeros, followed by the NUL of the variants with z - whatever stands before and after in the program, instructions with references of their own included - provided no address written as text needs more digits than its field.", "quantifier": "every program, every position of the directive in it, every label", "why_tests_cant": "All surrounding programs and label addresses; forward references.", "anchors": ["necroassembler/assembler.py:directive_db_to_ascii", "necroassembler/assembler.py:directive_dw_to_ascii", "necroassembler/assembler.py:_resolve_labels", "necroassembler/assembler.py:link"]}
{"id": "C78", "title": "Linked programs for NES, Game Boy and Master System mean what the processor manual says", "statement": "In a program for one of the consoles that assembles and links, with cartridge header directives and tile data anywhere in it, every relative branch lands on its label, a branch out of reach does not link, and every instruction with an address operand has, in the linked image, the opcode of the manual followed by the address of its label in the whole program. On the NES filling in the header later never touches code. On the Game Boy this holds for every instruction clear of the checksum bytes 014D-014F, and with a cartridge header in the program every instruction lies before 0100 or after 014F.", "quantifier": "every program, every instruction in it, every label", "why_tests_cant": "All programs mixing code, headers and tile data in any order.", "anchors": ["necroassembler/platforms/nes.py:_cartridge_fill", "necroassembler/platforms/gameboy.py:_cartridge_fill", "necroassembler/platforms/gameboy.py:_fix", "necroassembler/platforms/sms.py", "necroassembler/assembler.py:link"]}
{"id": "C79", "title": "Errors name the file, line and text of the statement that failed", "statement": "When assembling fails with an AssemblerException, its text says what went wrong and is followed by the line number, the file and the tokens (after defines) of the statement that failed: for an instruction always, for a label or directive unless the error is about the value of a number, an unknown name in a formula or a move of the origin, whose texts are exactly the message. An error inside an included file is told with that file and its own line numbers, one inside a macro with the line of its definition, not of the call. A misplaced colon is reported with its line. The place is one line of visible characters and can be read back: unless names of files have colons, different places have different texts. Asking for texts never changes what is assembled.", "quantifier": "every program, included files and macros at any depth, every failing statement, every wording of the handlers", "why_tests_cant": "Every statement of every program can fail in many ways, inside any nesting of files and macros; tests compare a few messages.", "anchors": ["necroassembler/exceptions.py", "necroassembler/statements.py:__str__", "necroassembler/statements.py:assemble", "necroassembler/macros.py:__call__", "necroassembler/tokenizer.py:InvalidLabel", "necroassembler/assembler.py:assemble", "necroassembler/assembler.py:directive_include"]}
{"id": "C80", "title": "The log lists exactly what each statement emitted", "statement": "While the log is on, assembling prints one line for each statement, in order: its place and, if it added bytes, these bytes in two-digit hexadecimal and the offset of the first in the output, otherwise that it was not assembled. The bytes listed make up the output, up to the padding added after the last statement. While the log is off nothing is printed. A line can be read back: unless names of files have colons, no two different statements, outputs or offsets give the same line.", "quantifier": "every program without .log and .include in the logged part, every statement", "why_tests_cant": "All programs: the lines are differences of successive outputs.", "anchors": ["necroassembler/assembler.py:assemble", "necroassembler/assembler.py:directive_log"]}
{"id": "C81", "title": "A build depends on the files it opens and on no others", "statement": "Adding files to the host changes nothing: a build that did not stop at a file that could not be opened has exactly the same result, error and output files when more files are present. Two builds of the same program that both succeed on different hosts write the same files unless some file exists on both hosts with different contents. This holds for assembling a text, for the command line of every shipped assembler and for the programs of the platforms.", "quantifier": "every program, every pair of hosts, every shipped assembler and platform, every nesting of includes", "why_tests_cant": "All programs and all hosts; a test fixes one directory.", "anchors": ["necroassembler/assembler.py:directive_include", "necroassembler/assembler.py:directive_incbin", "necroassembler/assembler.py:main", "necroassembler/platforms/nes.py"]}
{"id": "C82", "title": "Adding a label changes nothing else", "statement": "If a program assembles and links with any shipped assembler, then inserting one more label between two of its statements, or starting with further labels known, leaves every byte of the image, every other label and all other observable state as they were, provided the program does not define that name itself. For all processors but the 6502 this holds for assembling alone too, and a program that defines the name itself then always stops with LabelAlreadyDefined; the 6502 looks up labels while it assembles and takes the shorter zero page form if it finds one, which can only make a difference in programs that do not link without the label.", "quantifier": "every program, every label name and place, every set of further labels, every shipped assembler", "why_tests_cant": "All programs and all labels; a test compares two versions of one program.", "anchors": ["necroassembler/statements.py:Label", "necroassembler/assembler.py:parse_integer_or_label", "necroassembler/assembler.py:link", "necroassembler/cpu/mos6502.py:_manage_address"]}
{"id": "C83", "title": "A definition or macro that is not used changes nothing else", "statement": "With any shipped assembler, and for a program and files in which a name does not occur as a word (for macros: in any case in which it would be called, if case does not matter): inserting a .define of that name between two statements of the program, with any value, or a macro of that name with any parameters and body, leaves the image, all labels, all other definitions and macros and everything else observable as they were, and a program that failed fails in the same way. More generally a run never depends on the definitions and macros whose names the program does not contain.", "quantifier": "every program, every name that is no word of it, every value and body, every place, every shipped assembler", "why_tests_cant": "All programs, names and values; a test compares two versions of one program.", "anchors": ["necroassembler/utils.py:substitute_with_dict", "necroassembler/statements.py:Instruction.assemble", "necroassembler/statements.py:Directive.assemble", "necroassembler/assembler.py:directive_define", "necroassembler/assembler.py:directive_macro", "necroassembler/macros.py:Macro"]}
