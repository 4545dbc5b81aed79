{"id": "C01", "title": "Instruction stream write/read round trip", "statement": "A sequence of p-code instructions written to an object file by the code writer and read back by the instruction reader yields the same sequence, ending at the program's END instruction; every instruction keeps its opcode and both operands and the reported sizes add up to the number of bytes written.", "quantifier": "for every finite sequence of instructions over all 256 opcode values and all 8/16-bit operand values", "why_tests_cant": "256 opcodes x 2^24 operand values per instruction and unbounded sequence length; tests exercise only the programs the compiler happens to emit.", "anchors": ["insn16/libinsn/insn_addopcode.c:insn_AddOpCode", "insn16/libinsn/insn_addtmpopcode.c", "insn16/libinsn/insn_getopcode.c:insn_GetOpCode"]}
{"id": "C02", "title": "Virtual machine and object tools agree on instruction length", "statement": "Whenever the virtual machine executes an instruction that is not a taken branch, call, return or end, the program counter advances by exactly the length that the object-file reader assigns to that opcode.", "quantifier": "for every opcode byte, every operand, every machine state in which execution of the instruction does not fail", "why_tests_cant": "The state space of the machine is unbounded and two independent decoders have to agree on each opcode.", "anchors": ["insn16/libexec/libexec_run.c:libexec_Execute", "insn16/libinsn/insn_getopcode.c:insn_GetOpCode"]}
{"id": "C03", "title": "Long (32-bit) branch instructions survive encoding", "statement": "The bytes emitted by the compiler for a 24-bit long-integer branch are read back by the object tools as one instruction with the same operation and target, and executed by the virtual machine as that branch.", "quantifier": "for every long branch operation and every 16-bit target", "why_tests_cant": "Requires agreement between the emitter, the reader and the interpreter for the entire opcode sub-space.", "anchors": ["insn16/include/insn16.h:oLONGOP24", "insn16/libinsn/insn_genlongop.c:insn16_longOpcodeGenerate", "insn16/libinsn/insn_getopcode.c", "insn16/libexec/libexec_run.c:libexec_Execute"]}
{"id": "C04", "title": "Operand range checks on code generation", "statement": "When the code generator accepts an operand without reporting an integer overflow, the operand the virtual machine later decodes denotes the same number (as a 16-bit quantity); an operand outside of the representable range is always reported.", "quantifier": "for every opcode and every pair of integer operands", "why_tests_cant": "Operands range over all C ints; only exhaustive reasoning covers the boundaries on both the signed and the unsigned side.", "anchors": ["insn16/libinsn/insn_generate.c:insn16_Generate"]}
{"id": "C05", "title": "16-bit integer arithmetic of the virtual machine", "statement": "The unary and binary 16-bit arithmetic, logical, shift and comparison instructions replace their operands with the two's-complement result of the operation named by the instruction, leave every stack word below the operands unchanged and never touch any other memory.", "quantifier": "for every machine state with the operands on the stack and every operand value for which the operation is defined (non-zero divisor, shift count below the word size)", "why_tests_cant": "2^32 operand pairs per operation in every possible memory context.", "anchors": ["insn16/libexec/libexec_run.c:pexec8"]}
{"id": "C06", "title": "Division and shifts never crash the virtual machine", "statement": "Executing an integer division, modulo or shift instruction never invokes undefined behaviour of the host: an invalid operand leads to a run-time error code.", "quantifier": "for every machine state and every operand value", "why_tests_cant": "A single bad operand value in any reachable state suffices to crash the host process.", "anchors": ["insn16/libexec/libexec_run.c:pexec8"]}
{"id": "C07", "title": "Compare-and-branch agrees with compare", "statement": "A fused compare-and-branch instruction transfers control exactly when the corresponding comparison instruction would have pushed true, for the signed and the unsigned families; otherwise control falls through to the next instruction, and both remove the same operands from the stack.", "quantifier": "for every comparison, every operand pair, every machine state", "why_tests_cant": "Needs all 2^32 operand pairs for each of 16 branch instructions.", "anchors": ["insn16/libexec/libexec_run.c:pexec24", "insn16/libexec/libexec_run.c:pexec8"]}
{"id": "C08", "title": "Procedure call and return restore the caller", "statement": "After a procedure call, any callee execution that leaves the callee's frame header intact and drops its locals, and the return instruction, the caller continues at the instruction after the call with its frame pointer, string stack pointer, static nesting level, stack pointer and all memory below the callee's frame unchanged.", "quantifier": "for every caller state, every callee level, every callee behaviour that preserves the frame header", "why_tests_cant": "Callee behaviours and call depths are unbounded.", "anchors": ["insn16/libexec/libexec_run.c:libexec_ProcedureCall", "insn16/libexec/libexec_run.c:pexec8"]}
{"id": "C09", "title": "Static links designate the lexically enclosing frame", "statement": "Calling a procedure declared at nesting level n+1 links the new frame to the innermost active frame, along the caller's static chain, of level n; variable accesses that go k levels up from a frame reach the frame k static links away. A call for which no such frame exists is reported as a nesting-level error.", "quantifier": "for every well-formed chain of active frames of any depth", "why_tests_cant": "Recursion depth and frame chain shapes are unbounded.", "anchors": ["insn16/libexec/libexec_run.c:libexec_ProcedureCall", "insn16/libexec/libexec_run.c:libexec_GetBaseAddress"]}
{"id": "C10", "title": "Indexed loads and stores address the same element", "statement": "An indexed store to a frame variable followed by an indexed load with the same level, offset and index operands returns the value stored (truncated to the element width).", "quantifier": "for every machine state, level, offset and index", "why_tests_cant": "The address computation is duplicated in a dozen instructions; agreement has to hold on all index values.", "anchors": ["insn16/libexec/libexec_run.c:pexec32", "insn16/libexec/libexec_run.c:libexec_GetBaseAddress"]}
{"id": "C11", "title": "A store changes only the addressed variable", "statement": "A simple or indexed store instruction changes exactly the bytes of the addressed element: a subsequent load of the same element yields the stored value and a load of any non-overlapping location yields what it would have before.", "quantifier": "for every state and every pair of addresses", "why_tests_cant": "Aliasing between byte and word views of the data stack makes the space of address pairs quadratic.", "anchors": ["insn16/libexec/libexec_run.c:pexec24", "insn16/libexec/libexec_run.c:pexec32", "insn16/include/libexec.h:PUTSTACK"]}
{"id": "C12", "title": "Multiple-word load, store and block copy are faithful", "statement": "Loading n bytes with a multiple-load and storing them with a multiple-store copies exactly the n bytes to the destination; odd sizes are handled and no byte beyond the destination is altered.", "quantifier": "for every size, source and destination address that do not overlap with the stack top", "why_tests_cant": "Sizes and addresses range over 16-bit values, odd sizes are a corner case.", "anchors": ["insn16/libexec/libexec_run.c:pexec24"]}
{"id": "C13", "title": "Program execution cannot touch memory outside the data stack", "statement": "No p-code program, however wrong, makes the virtual machine read or write host memory outside the allocated data stack; a bad address results in a run-time error.", "quantifier": "for every program image and every execution", "why_tests_cant": "Hostile or wrong programs are not enumerable.", "anchors": ["insn16/libexec/libexec_run.c", "insn16/include/libexec.h:GETSTACK"]}
{"id": "C14", "title": "32-bit integer arithmetic", "statement": "The long-integer arithmetic, logical, shift and conversion operations compute the 32-bit two's-complement result of the named operation on the two 32-bit operands, and conversion between 16 and 32 bits sign- or zero-extends and truncates as named.", "quantifier": "for every pair of 32-bit operands and every machine state", "why_tests_cant": "2^64 operand pairs per operation.", "anchors": ["insn16/libexec/libexec_longops.c:libexec_LongOperation8"]}
{"id": "C15", "title": "32-bit comparisons order operands like the 16-bit ones", "statement": "A long-integer comparison pushes true exactly when the named relation holds between the first-pushed and the second-pushed operand, like the 16-bit comparisons.", "quantifier": "for every pair of 32-bit operands and every comparison", "why_tests_cant": "2^64 operand pairs per comparison.", "anchors": ["insn16/libexec/libexec_longops.c:libexec_LongOperation8"]}
{"id": "C16", "title": "Long duplicate and exchange", "statement": "Duplicating a long value pushes a copy of it; exchanging swaps the two long values on the top of the stack; nothing else changes.", "quantifier": "for every machine state", "why_tests_cant": "All 2^64 contents of the top four words and every stack position.", "anchors": ["insn16/libexec/libexec_longops.c:libexec_LongOperation8"]}
{"id": "C17", "title": "Set algebra", "statement": "Set union, intersection, difference, symmetric difference, equality, inequality and inclusion on the stack compute the mathematical operation on subsets of 0..63.", "quantifier": "for every pair of subsets of 0..63 and every machine state", "why_tests_cant": "2^128 pairs of sets per operation.", "anchors": ["insn16/libexec/libexec_setops.c"]}
{"id": "C18", "title": "Set membership", "statement": "The membership test is true exactly for the elements in the set and a member number outside of 0..63 is reported as a value range error.", "quantifier": "for every set and every 16-bit member number", "why_tests_cant": "2^64 sets x 2^16 members.", "anchors": ["insn16/libexec/libexec_setops.c:libexec_member"]}
{"id": "C19", "title": "Including and excluding a set element", "statement": "Include adds exactly the requested element to the set variable and Exclude removes exactly it; nothing outside of the set variable is modified; an element out of range is reported.", "quantifier": "for every set variable, every memory contents and every 16-bit element", "why_tests_cant": "Memory contents and element values are unbounded for testing purposes.", "anchors": ["insn16/libexec/libexec_setops.c:libexec_include", "insn16/libexec/libexec_setops.c:libexec_exclude"]}
{"id": "C20", "title": "Set singleton and cardinality", "statement": "A singleton constructor yields the one-element set (or a range error) and Card returns the number of members of the set.", "quantifier": "for every element and every set", "why_tests_cant": "2^64 sets.", "anchors": ["insn16/libexec/libexec_setops.c:libexec_singleton", "insn16/libexec/libexec_setops.c:libexec_card"]}
{"id": "C21", "title": "Set subrange constructor", "statement": "The subrange constructor [a..b] terminates and yields exactly the members between a and b.", "quantifier": "for every a and b", "why_tests_cant": "The multi-word loop has distinct behaviours for all alignments of a and b; termination cannot be tested.", "anchors": ["insn16/libexec/libexec_setops.c:libexec_subrange"]}
{"id": "C22", "title": "Live heap blocks are disjoint and within the heap", "statement": "At every point of a run, the memory areas returned by New and not yet disposed are pairwise disjoint, at least as large as requested and lie inside of the heap region.", "quantifier": "for every heap size and every interleaving of New and Dispose calls with arbitrary sizes", "why_tests_cant": "Histories are unbounded and fragmentation patterns explode.", "anchors": ["insn16/libexec/libexec_heap.c:libexec_New", "insn16/libexec/libexec_heap.c:libexec_Dispose"]}
{"id": "C23", "title": "Disposed heap memory becomes available again", "statement": "After all blocks were disposed, the heap can again satisfy the largest request it could satisfy when it was initialised.", "quantifier": "for every history of New and Dispose calls that ends with all blocks disposed", "why_tests_cant": "Leaks accumulate over unbounded histories.", "anchors": ["insn16/libexec/libexec_heap.c:libexec_DisposeChunk", "insn16/libexec/libexec_heap.c:libexec_AddChunkToFreeList"]}
{"id": "C24", "title": "Heap initialisation stays within the heap", "statement": "Initialising the heap writes only within the configured heap region and makes a single free block spanning it.", "quantifier": "for every heap base and size configuration", "why_tests_cant": "All 2^32 base/size pairs have to be considered; alignment corner cases.", "anchors": ["insn16/libexec/libexec_heap.c:libexec_InitializeHeap"]}
{"id": "C25", "title": "Invalid Dispose calls are rejected", "statement": "Disposing an address that is not inside the heap, or a block that has already been disposed, reports an error and leaves the heap unchanged.", "quantifier": "for every heap state and every address", "why_tests_cant": "All addresses in all heap states.", "anchors": ["insn16/libexec/libexec_heap.c:libexec_Free"]}
{"id": "C26", "title": "Delete removes the requested substring", "statement": "Delete(s, pos, n) removes the n characters starting at pos (fewer if the string ends before) and leaves s unchanged if pos does not designate a character of s.", "quantifier": "for every string, position and count", "why_tests_cant": "String contents, positions and counts range over 16-bit values; boundary positions 0 and length+1.. matter.", "anchors": ["insn16/libexec/libexec_stringlib.c:libexec_StringOperations"]}
{"id": "C27", "title": "Insert inserts the source string at the position", "statement": "Insert(src, dest, pos) yields the characters of dest before pos, then src, then the rest of dest, truncated to the capacity of dest; bytes outside of the destination's buffer are not modified.", "quantifier": "for every source, destination, capacity and position", "why_tests_cant": "Strings and positions are unbounded.", "anchors": ["insn16/libexec/libexec_stringlib.c:libexec_StringOperations"]}
{"id": "C28", "title": "Copy returns the requested substring", "statement": "Copy(s, from, howMany) returns the characters from..from+howMany-1 of s clipped to the end of s.", "quantifier": "for every string, position, count", "why_tests_cant": "Strings and positions are unbounded.", "anchors": ["insn16/libexec/libexec_stringlib.c:libexec_StringOperations"]}
{"id": "C29", "title": "Pos finds the first occurrence", "statement": "Pos(sub, s, start) returns the smallest index at or after start at which sub occurs in s and 0 if there is none.", "quantifier": "for every pair of strings and start position", "why_tests_cant": "Strings are unbounded, search windows may cross the end of the buffer.", "anchors": ["insn16/libexec/libexec_stringlib.c:libexec_StringOperations"]}
{"id": "C30", "title": "String comparison is lexicographic order", "statement": "String comparison returns negative, zero or positive according to the lexicographic order with a proper prefix being smaller; consequently it is a total order.", "quantifier": "for every pair of strings", "why_tests_cant": "Total order laws quantify over all triples of strings.", "anchors": ["insn16/libexec/libexec_stringlib.c:libexec_StringOperations"]}
{"id": "C31", "title": "String assignment copies the value within capacity", "statement": "Assigning a string to a string variable makes the variable's value the source's, truncated to the capacity of the variable; no byte outside the destination buffer changes.", "quantifier": "for every source and destination", "why_tests_cant": "All memory layouts and lengths.", "anchors": ["insn16/libexec/libexec_stringlib.c:libexec_StrCpy"]}
{"id": "C32", "title": "Concatenation appends within capacity", "statement": "Concatenating appends the characters of the second string up to the capacity of the first; no byte outside the destination buffer changes.", "quantifier": "for every pair of strings and capacity", "why_tests_cant": "All lengths and capacities, including temporary strings whose capacity word carries a flag bit.", "anchors": ["insn16/libexec/libexec_stringlib.c:libexec_StrCat", "insn16/libexec/libexec_stringlib.c:libexec_StrCatC"]}
{"id": "C33", "title": "String to character array conversion stays inside of the array", "statement": "Copying a string into an array of characters writes only the bytes of the array.", "quantifier": "for every string length and array size", "why_tests_cant": "All length/size combinations.", "anchors": ["insn16/libexec/libexec_stringlib.c:libexec_Str2BStr"]}
{"id": "C34", "title": "The string stack cannot overwrite the program's constants", "statement": "Creating a string variable either reports string stack overflow or reserves a buffer inside of the string stack region.", "quantifier": "for every configuration and every allocation history", "why_tests_cant": "Allocation histories are unbounded.", "anchors": ["insn16/libexec/libexec_stringlib.c:libexec_StrInit", "insn16/libexec/libexec_run.c:libexec_Reset"]}
{"id": "C35", "title": "Constant folding of 16-bit operations is sound", "statement": "Replacing an operation on pushed constants with the push of its result does not change what the program computes: the folded constant is the value the virtual machine would have computed.", "quantifier": "for every operation and every constant operand (pair)", "why_tests_cant": "2^32 operand pairs per operation.", "anchors": ["insn16/popt/popt_constants.c:popt_UnaryOptimize", "insn16/popt/popt_constants.c:popt_BinaryOptimize"]}
{"id": "C36", "title": "Strength reduction of 16-bit operations is sound", "statement": "Replacing an operation with a constant operand by a cheaper one (identity removal, increment, shift, negation, comparison with zero) does not change the program's results.", "quantifier": "for every machine state, every value of the non-constant operand, every constant for which the rule applies", "why_tests_cant": "Unbounded machine states.", "anchors": ["insn16/popt/popt_constants.c:popt_UnaryOptimize", "insn16/popt/popt_constants.c:popt_BinaryOptimize"]}
{"id": "C37", "title": "Branch and comparison fusion is sound", "statement": "Fusing a comparison with a logical NOT or a conditional jump into one instruction does not change the control flow or the results.", "quantifier": "for every machine state", "why_tests_cant": "Unbounded machine states.", "anchors": ["insn16/popt/popt_branch.c:popt_BranchOptimize"]}
{"id": "C38", "title": "Load/store peephole rewrites are sound", "statement": "Replacing load/store combinations by duplications, exchanges or direct addressing does not change the values computed or stored.", "quantifier": "for every machine state, level, offset, index", "why_tests_cant": "Unbounded machine states and aliasing.", "anchors": ["insn16/popt/popt_loadstore.c"]}
{"id": "C39", "title": "Long constant folding is sound", "statement": "Folding long-integer operations on constants yields the same stack contents as executing them, including the width of the result.", "quantifier": "for every operation and every 32-bit operand pair", "why_tests_cant": "2^64 operand pairs per operation.", "anchors": ["insn16/popt/popt_longconst.c"]}
{"id": "C40", "title": "The optimizer terminates", "statement": "The optimizer terminates on every input program.", "quantifier": "for every instruction sequence", "why_tests_cant": "Non-termination cannot be observed by a test in finite time and depends on rewriting cycles.", "anchors": ["insn16/popt/popt_local.c:popt_LocalOptimization", "insn16/popt/popt_constants.c:popt_BinaryOptimize"]}
{"id": "C41", "title": "Label resolution preserves control flow", "statement": "After label resolution every branch and call to a label refers to the address of the instruction that followed the label definition, and all other instructions are unchanged and in order.", "quantifier": "for every program with labels defined at most once", "why_tests_cant": "Programs are unbounded.", "anchors": ["insn16/popt/popt_finalize.c"]}
{"id": "C42", "title": "Linking relocates code", "statement": "In the linked program each input module's instructions appear in order starting at the module's code offset; every branch and call target is shifted by the code offset, every constant-data reference by the data offset, and all other instructions are unchanged.", "quantifier": "for every list of input modules", "why_tests_cant": "Module counts and contents are unbounded.", "anchors": ["plink/plink.c:plink_MergeProgramData", "insn16/libinsn/insn_relocate.c:insn_Relocate"]}
{"id": "C43", "title": "Linking keeps constant data addressable", "statement": "After linking, the bytes of a module's constant data are found at the module's data offset in the linked constant data.", "quantifier": "for every list of modules", "why_tests_cant": "Module counts and contents are unbounded.", "anchors": ["plink/plink.c:plink_MergeRoData", "libpoff/pfwrodata.c"]}
{"id": "C44", "title": "Linker symbol resolution", "statement": "The linker succeeds exactly if every procedure or function referenced externally is defined by exactly one module, and the table maps each such name to the address of its definition, independent of the order of the symbols.", "quantifier": "for every multiset of symbol definitions and references in every order", "why_tests_cant": "The orders of symbols are factorially many.", "anchors": ["plink/plsym.c:insertSymbol", "plink/plsym.c:verifySymbols"]}
{"id": "C45", "title": "Relocation patches exactly the call targets", "statement": "Applying the relocations writes the resolved address into the 16-bit operand of each external call and changes no other byte of the program.", "quantifier": "for every program image and relocation list", "why_tests_cant": "Programs and relocation lists are unbounded.", "anchors": ["plink/plreloc.c:applyRelocations", "insn16/libinsn/insn_relocate.c:insn_FixupProcedureCall"]}
{"id": "C46", "title": "Object file write/read round trip", "statement": "Writing an object container to a file and reading it back yields the same file header data, program image, constant data, symbols, relocations, file table, line numbers, debug records and strings.", "quantifier": "for every object container contents", "why_tests_cant": "Section contents are unbounded and sections may be empty.", "anchors": ["libpoff/pfwrite.c:poffWriteFile", "libpoff/pfread.c:poffReadFile"]}
{"id": "C47", "title": "Byte swapping is faithful on all hosts", "statement": "On a host of opposite byte order, the fields of every table entry are byte-swapped exactly once when reading and writing, so that object files are portable.", "quantifier": "for every table of any length", "why_tests_cant": "Tables are unbounded; index arithmetic errors show only with several entries.", "anchors": ["libpoff/pfswap.c"]}
{"id": "C48", "title": "String table", "statement": "Adding a string returns an index at which exactly that string can be retrieved for ever after; adding the same string twice returns the same index; existing indices stay valid.", "quantifier": "for every history of additions", "why_tests_cant": "Histories are unbounded.", "anchors": ["libpoff/pfwstring.c:poffAddString", "libpoff/pfrstring.c:poffGetString"]}
{"id": "C49", "title": "Source line lookup", "statement": "Looking up the source line of a code address returns the line record with the greatest code offset not above the address, whatever lookups were made before.", "quantifier": "for every sorted line table, every address and every history of lookups", "why_tests_cant": "The lookup caches its last position: results may depend on unbounded histories.", "anchors": ["libpoff/pflineno.c:poffFindLineNumber"]}
{"id": "C50", "title": "Label tables", "statement": "A label defined with an address resolves to that address, a label never defined is reported, and an undefined label resolves to its symbol.", "quantifier": "for every history of definitions and queries", "why_tests_cant": "Histories are unbounded.", "anchors": ["libpoff/pflabel.c"]}
{"id": "C51", "title": "Integer text I/O round trip", "statement": "Reading the text that Write produces for an integer returns the same integer; text of an out-of-range number saturates in the direction of its sign.", "quantifier": "for every 16-bit integer and every digit string", "why_tests_cant": "Digit strings are unbounded; the extreme values are corner cases.", "anchors": ["insn16/libexec/libexec_sysio.c:libexec_ConvertInteger", "insn16/libexec/libexec_sysio.c:libexec_WriteInteger"]}
{"id": "C52", "title": "File numbers are exclusive", "statement": "A file number handed out to a program is not handed out again before it is freed; with all numbers in use an error is reported; freeing an unused number is reported and standard input and output keep their numbers.", "quantifier": "for every history of allocations and releases", "why_tests_cant": "Histories are unbounded.", "anchors": ["insn16/libexec/libexec_sysio.c:libexec_AllocateFile", "insn16/libexec/libexec_sysio.c:libexec_FreeFile"]}
{"id": "C53", "title": "File access modes are enforced and errors are reported", "statement": "A read succeeds only on a file open for reading, a write only on a file open for writing or appending, and a failed open is always reported to the program.", "quantifier": "for every history of file operations", "why_tests_cant": "Histories and failure points are unbounded.", "anchors": ["insn16/libexec/libexec_sysio.c:libexec_OpenFile", "insn16/libexec/libexec_sysio.c:libexec_sysio"]}
{"id": "C54", "title": "End of line is recognised on every line", "statement": "After reading a line of a text file the newline is not part of the data and end-of-line is reported, for every line including the empty one.", "quantifier": "for every line contents", "why_tests_cant": "Line contents are unbounded; the empty line is a corner case.", "anchors": ["insn16/libexec/libexec_sysio.c:libexec_CheckEoln"]}
{"id": "C55", "title": "Relocations and line records follow their instructions", "statement": "When markers are removed during label resolution, every relocation is moved to the new offset of the instruction it patches and every line record carries the address of the instruction following its marker; exactly the calls of external routines get a new relocation naming their symbol.", "quantifier": "for every program and every relocation list ordered by offset", "why_tests_cant": "Programs, marker positions and relocation lists are unbounded.", "anchors": ["insn16/popt/popt_finalize.c:popt_WriteOpCode", "insn16/popt/popt_finalize.c:pass1", "insn16/popt/popt_finalize.c:pass3"]}
{"id": "C56", "title": "Linking keeps source positions", "statement": "Every line record of an input module appears in the linked program with its code address shifted by the module's code offset and with a file number that names the same source file as before.", "quantifier": "for every list of modules with their file names and line records", "why_tests_cant": "The number of modules, files and records is unbounded.", "anchors": ["plink/plink.c:plink_MergeFileNames", "plink/plink.c:plink_MergeLineNumbers"]}
{"id": "C57", "title": "Number literals have their value", "statement": "A decimal, hexadecimal or binary integer literal in the source yields one integer token with the value of the literal, consumes exactly the characters of the literal, and a value that does not fit is reported.", "quantifier": "for every literal, every following text and every state of the tokenizer", "why_tests_cant": "Literals and contexts are unbounded.", "anchors": ["pascal/pas_token.c:pas_UnsignedNumber", "pascal/pas_token.c:pas_UnsignedHexadecimal", "pascal/pas_token.c:pas_UnsignedBinary", "pascal/pas_token.c:getToken"]}
{"id": "C58", "title": "String and character literals", "statement": "A quoted text, with quotes inside written twice, yields a string token with exactly that text (a character token with its code if it has one character); a literal that is not closed on its line is reported.", "quantifier": "for every text and every state of the tokenizer", "why_tests_cant": "Texts are unbounded.", "anchors": ["pascal/pas_token.c:pas_StringToken"]}
{"id": "C59", "title": "Blanks and comments are skipped exactly", "statement": "Blanks and the four kinds of comments in front of a token change neither the token nor what follows it.", "quantifier": "for every sequence of blanks and comments and every following text", "why_tests_cant": "Comments are unbounded and may contain the openers and halves of the closers of each other.", "anchors": ["pascal/pas_token.c:getToken", "pascal/pas_token.c:pas_GetCharacter", "pascal/pas_token.c:pas_SkipLine"]}
{"id": "C60", "title": "The tokenizer comes to an end", "statement": "Every call of getToken returns, and the end of the source file is noticed: no token is delivered that is not in the file.", "quantifier": "for every source text", "why_tests_cant": "Termination concerns all texts.", "anchors": ["pascal/pas_token.c:getToken", "pascal/pas_token.c:pas_GetCharacter", "pascal/pas_token.c:pas_GetLine"]}
{"id": "C61", "title": "The longest special symbol is taken", "statement": "Of the symbols made of special characters the longest one that the text starts with is delivered and exactly its characters are consumed.", "quantifier": "for every special symbol and every following text", "why_tests_cant": "The following text is unbounded.", "anchors": ["pascal/pas_token.c:getToken"]}
{"id": "C62", "title": "Reserved words are recognised", "statement": "A word is delivered as the reserved word of the table (directly or by an alternative name) that it equals up to the case of its letters.", "quantifier": "for every word in every spelling and every symbol table", "why_tests_cant": "There are exponentially many spellings; the search stops early and relies on the order of the table.", "anchors": ["pascal/pas_token.c:pas_Identifier", "pascal/pas_symtable.c:pas_FindReservedWord", "pascal/pas_symtable.c:pas_MapToAlias"]}
{"id": "C63", "title": "Names denote the latest declaration in scope", "statement": "A word that is not reserved yields the latest symbol of that name, up to the case of the letters, in the part of the symbol table that is searched; fields of records are found only behind a period or inside WITH, and there first; an undeclared word is delivered as an identifier with its text.", "quantifier": "for every symbol table, every word and every context", "why_tests_cant": "Symbol tables are unbounded.", "anchors": ["pascal/pas_token.c:pas_SymbolToken", "pascal/pas_token.c:pas_Identifier", "pascal/pas_symtable.c:pas_FindNextSymbol", "pascal/pas_token.c:getLevelToken"]}
{"id": "C64", "title": "What is accepted is an expression", "statement": "If the expression compiler reports no error, the tokens it has consumed form an expression of the grammar of Pascal with its precedence and left associativity, and the next token does not continue it.", "quantifier": "for every token sequence, every requested type and every state of the compiler", "why_tests_cant": "Token sequences are unbounded and nest to any depth.", "anchors": ["pascal/pas_expression.c:pas_Expression", "pascal/pas_expression.c:pas_SimpleExpression", "pascal/pas_expression.c:pas_Term", "pascal/pas_expression.c:pas_Factor"]}
{"id": "C65", "title": "The code of an expression computes its value", "statement": "Every well-typed expression is accepted, and executing its code in any state pushes exactly the value of the expression, leaving registers and all words of the stack in use unchanged, whenever no intermediate result leaves its type.", "quantifier": "for every expression of integer, long, character and Boolean operands, every nesting level, every memory and every value of the variables", "why_tests_cant": "Expressions, values and nesting depths are unbounded; a wrong operator selection shows only for particular type and value combinations.", "anchors": ["pascal/pas_expression.c:pas_Expression", "pascal/pas_expression.c:pas_SimpleExpression", "pascal/pas_expression.c:pas_Term", "pascal/pas_expression.c:pas_Factor", "pascal/pas_expression.c:pas_TypeCast", "pascal/pas_codegen.c:pas_GenerateStackReference"]}
{"id": "C66", "title": "Ill-typed expressions are rejected", "statement": "An expression whose operands do not have the types its operators require, or that is not of the requested type, leads to an error.", "quantifier": "for every token sequence and every requested type", "why_tests_cant": "There are unboundedly many expressions; the checks are spread over the functions.", "anchors": ["pascal/pas_expression.c:pas_Expression", "pascal/pas_expression.c:pas_SimpleExpression", "pascal/pas_expression.c:pas_Term", "pascal/pas_expression.c:pas_Factor"]}
{"id": "C67", "title": "The expression compiler ends", "statement": "The expression compiler returns for every token sequence, after a number of nested calls bounded by the number of tokens.", "quantifier": "for every token sequence, with or without errors", "why_tests_cant": "Termination concerns all inputs, including ill-formed ones.", "anchors": ["pascal/pas_expression.c:pas_Expression", "pascal/pas_expression.c:pas_SimpleExpression", "pascal/pas_expression.c:pas_Term", "pascal/pas_expression.c:pas_Factor"]}
{"id": "C68", "title": "The code of a statement does what the statement means", "statement": "Every well-typed statement (assignment, IF, WHILE, REPEAT, FOR, CASE, BEGIN-END, Break, Continue, nested in any way) is accepted, and executing its code from any state takes the variables to the values the statement defines, with the stack pointer, the registers and all other words in use unchanged.", "quantifier": "for every statement, every nesting, every placement of the variables, every state and every terminating execution", "why_tests_cant": "Programs, nesting depths and numbers of iterations are unbounded; errors in stack adjustment or label selection show only for particular nestings.", "anchors": ["pascal/pas_statement.c:pas_Statement", "pascal/pas_statement.c:pas_CompoundStatement", "pascal/pas_statement.c:pas_IfStatement", "pascal/pas_statement.c:pas_RepeatStatement", "pascal/pas_statement.c:pas_WhileStatement", "pascal/pas_statement.c:pas_CaseStatement", "pascal/pas_statement.c:pas_ForStatement", "pascal/pas_statement.c:pas_Assignment", "pascal/pas_statement.c:pas_ContinueBreak"]}
{"id": "C69", "title": "Labels", "statement": "Every label a statement places is new and is placed once; without errors every jump leads to a label of the statement or to the enclosing loop's labels, so that execution is determinate; the state of the enclosing loop is restored.", "quantifier": "for every token sequence, with or without errors, and every state of the compiler", "why_tests_cant": "Label numbers come from one counter shared by all nested constructs; a clash needs a particular nesting.", "anchors": ["pascal/pas_statement.c:pas_Statement", "pascal/pas_statement.c:pas_CompoundStatement", "pascal/pas_statement.c:pas_IfStatement", "pascal/pas_statement.c:pas_RepeatStatement", "pascal/pas_statement.c:pas_WhileStatement", "pascal/pas_statement.c:pas_CaseStatement", "pascal/pas_statement.c:pas_ForStatement", "pascal/pas_statement.c:pas_Assignment", "pascal/pas_statement.c:pas_ContinueBreak"]}
{"id": "C70", "title": "The statement compiler ends", "statement": "The statement compiler returns for every token sequence, after a number of nested calls bounded by the number of tokens.", "quantifier": "for every token sequence, with or without errors", "why_tests_cant": "Termination concerns all inputs, including ill-formed ones.", "anchors": ["pascal/pas_statement.c:pas_Statement", "pascal/pas_statement.c:pas_CompoundStatement", "pascal/pas_statement.c:pas_IfStatement", "pascal/pas_statement.c:pas_RepeatStatement", "pascal/pas_statement.c:pas_WhileStatement", "pascal/pas_statement.c:pas_CaseStatement", "pascal/pas_statement.c:pas_ForStatement", "pascal/pas_statement.c:pas_Assignment", "pascal/pas_statement.c:pas_ContinueBreak"]}
{"id": "C71", "title": "What the statement compiler accepts is a statement", "statement": "If the statement compiler reports no error, the tokens it consumed are a statement of the grammar, each ELSE belongs to the nearest IF, the expressions are of the types asked for, the FOR variables are integers, and Break and Continue are inside of a loop.", "quantifier": "for every token sequence and every state of the compiler", "why_tests_cant": "Ill-formed programs are unbounded in number; a missing check shows only for a particular wrong token at a particular place.", "anchors": ["pascal/pas_statement.c:pas_Statement", "pascal/pas_statement.c:pas_CompoundStatement", "pascal/pas_statement.c:pas_IfStatement", "pascal/pas_statement.c:pas_RepeatStatement", "pascal/pas_statement.c:pas_WhileStatement", "pascal/pas_statement.c:pas_CaseStatement", "pascal/pas_statement.c:pas_ForStatement", "pascal/pas_statement.c:pas_Assignment", "pascal/pas_statement.c:pas_LargeAssignment", "pascal/pas_statement.c:pas_ContinueBreak"]}
{"id": "C72", "title": "The compiler finds the value of a constant expression", "statement": "The evaluation of a well-formed constant expression of the integer, character, Boolean and set types yields its value, consumes its tokens, generates no code and reports no error.", "quantifier": "for every constant expression of any length and depth, every text behind it and every state of the compiler", "why_tests_cant": "Expressions are unbounded in number and nesting; a wrong operator shows only for particular operands.", "anchors": ["pascal/pas_constexpr.c:pas_ConstantExpression", "pascal/pas_constexpr.c:pas_ConstantSimpleExpression", "pascal/pas_constexpr.c:pas_ConstantTerm", "pascal/pas_constexpr.c:pas_ConstantFactor", "pascal/pas_constfunc.c:pas_StandardFunctionOfConstant"]}
{"id": "C73", "title": "Set constants contain exactly the elements written", "statement": "A set constructor contains the elements and ranges listed in it, and the operators on sets yield union, difference, intersection and symmetric difference.", "quantifier": "for every base type, all bounds of ranges, every state of the compiler", "why_tests_cant": "4096 ranges for every base type; which of them are wrong depends on where word boundaries fall.", "anchors": ["pascal/pas_constexpr.c:pas_GetConstantSubSet", "pascal/pas_constexpr.c:pas_AddBitSetElements", "pascal/pas_constexpr.c:setUnion", "pascal/pas_constexpr.c:setDifference", "pascal/pas_constexpr.c:setSymmetricDifference", "pascal/pas_constexpr.c:pas_ConstantFactor"]}
{"id": "C74", "title": "What is accepted as a constant is a constant expression", "statement": "If no error is reported, the tokens consumed are a constant expression whose operands have the types required, and the type of the result is its type.", "quantifier": "for every token sequence and every state of the compiler", "why_tests_cant": "Ill-formed constants are unbounded in number; a missing check shows only for a particular wrong token at a particular place.", "anchors": ["pascal/pas_constexpr.c:pas_ConstantExpression", "pascal/pas_constexpr.c:pas_ConstantSimpleExpression", "pascal/pas_constexpr.c:pas_ConstantTerm", "pascal/pas_constexpr.c:pas_ConstantFactor", "pascal/pas_constfunc.c:pas_StandardFunctionOfConstant"]}
{"id": "C75", "title": "The evaluation of a constant ends", "statement": "The recursive descent over a constant expression ends for every token sequence, and its result does not depend on how long one waits.", "quantifier": "for every token sequence, well-formed or not", "why_tests_cant": "Termination on all inputs is not observable by finitely many runs.", "anchors": ["pascal/pas_constexpr.c:pas_ConstantExpression", "pascal/pas_constexpr.c:pas_ConstantSimpleExpression", "pascal/pas_constexpr.c:pas_ConstantTerm", "pascal/pas_constexpr.c:pas_ConstantFactor", "pascal/pas_constfunc.c:pas_StandardFunctionOfConstant"]}
{"id": "C76", "title": "Variables do not share storage", "statement": "The variables declared by a VAR group occupy disjoint bytes between the old and the new end of the data, each is as large as its type, and everything larger than a byte begins at an even address.", "quantifier": "for every VAR group, well-formed or not, with any number of variables and types of any depth, and every symbol table", "why_tests_cant": "The number of declarations and the nesting of their types are unbounded; an overlap shows only for a particular sequence of odd sizes.", "anchors": ["pascal/pas_block.c:pas_VariableDeclarationGroup", "pascal/pas_block.c:pas_DeclareVar", "pascal/pas_block.c:pas_TypeDenoter", "pascal/pas_block.c:pas_IntAlignRequired", "pascal/pas_symtable.c:pas_AddVariable", "pascal/pas_symtable.c:pas_AddFile"]}
{"id": "C80", "title": "Formal parameters do not share storage", "statement": "The parameters of a procedure lie below its frame at even, disjoint offsets; each is as large as its type, or an address, and the offset returned is the total of the words they take.", "quantifier": "for every formal parameter list, well-formed or not, and every symbol table", "why_tests_cant": "The number of parameters and their types are unbounded.", "anchors": ["pascal/pas_block.c:pas_FormalParameterList", "pascal/pas_block.c:pas_DeclareParameter"]}
{"id": "C77", "title": "Layout of types", "statement": "The types of a TYPE section, and the type of a variable, are accepted and described correctly: sizes, bounds, the distance of array elements, and record fields that do not overlap, lie inside the record and are aligned.", "quantifier": "for every list of type definitions and every denoter built from names, subranges, pointers, sets, arrays of any dimension and records nested to any depth, over every symbol table", "why_tests_cant": "Nesting and number of definitions are unbounded; a wrong unit or offset shows only for a particular combination of sizes.", "anchors": ["pascal/pas_block.c:pas_TypeDenoter", "pascal/pas_block.c:pas_NewSimpleType", "pascal/pas_block.c:pas_NewComplexType", "pascal/pas_block.c:pas_DeclareRecord", "pascal/pas_block.c:pas_AddArrayIndex", "pascal/pas_block.c:pas_GetArrayIndexType", "pascal/pas_block.c:pas_TypeDefinitionGroup"]}
{"id": "C78", "title": "Array elements", "statement": "An indexed variable denotes the element of the array that the indices select: the code loads its value or stores to it and changes nothing else; elements selected by different indices do not overlap and lie inside the array; a wrong number of indices is an error.", "quantifier": "for every array type of any dimension with integer bounds and elements of a simple type, at every level and offset, for all index expressions, values and states of the machine", "why_tests_cant": "The dimensions, bounds and nesting of expressions are unbounded; a wrong unit of one dimension shows only for particular bounds.", "anchors": ["pascal/pas_expression.c:pas_ArrayIndex", "pascal/pas_expression.c:pas_SimpleFactor", "pascal/pas_expression.c:pas_BaseFactor", "pascal/pas_statement.c:pas_SimpleAssignment", "pascal/pas_statement.c:pas_Assignment", "pascal/pas_statement.c:pas_LargeAssignment", "pascal/pas_block.c:pas_TypeDenoter"]}
{"id": "C79", "title": "Ordinal types and sets", "statement": "A subrange, an enumerated type or a set is accepted exactly if it is well-formed: the bounds recorded are the values written, the lower is not above the upper, the constants of an enumerated type are new names numbered from 0, and a set has at most 64 elements.", "quantifier": "for all sequences of words, symbol tables and names", "why_tests_cant": "Bounds range over all integers, enumerations are of any length, and constants may stand for bounds; overflow in 16-bit arithmetic shows only at particular values.", "anchors": ["pascal/pas_block.c:pas_NewSimpleType", "pascal/pas_block.c:pas_NewComplexType", "pascal/pas_block.c:pas_DeclareSimpleType", "pascal/pas_block.c:pas_OrdinalTypeIdentifier"]}
{"id": "C81", "title": "Reading declarations comes to an end", "statement": "Reading type definitions, variable declarations and formal parameters takes no more steps than there are words left; only the search for the base type of a type can run forever, and it does so exactly if the parents of the type form a circle.", "quantifier": "for all sequences of words, well-formed or not, and all symbol tables", "why_tests_cant": "Termination cannot be observed by running; the inputs that hang are cyclic types that no well-formed test contains.", "anchors": ["pascal/pas_block.c:pas_TypeDefinitionGroup", "pascal/pas_block.c:pas_VariableDeclarationGroup", "pascal/pas_block.c:pas_FormalParameterList", "pascal/pas_expression.c:pas_GetBaseTypePointer"]}
{"id": "C82", "title": "Calls of procedures and functions", "statement": "A call evaluates its arguments and passes them so that every parameter, at the place the declaration gives it, contains the value of its argument or the address of the variable; when the procedure returns, the stack is as large as before, registers are restored, and for a function the result lies on top.", "quantifier": "for all procedures with value and VAR parameters of simple types, all argument lists, states of the machine and bodies that return properly", "why_tests_cant": "Numbers and types of parameters, arguments and stack contents are unbounded; errors of layout show only when the sizes of the parameters differ or the stack contains something else.", "anchors": ["pascal/pas_procedure.c:pas_ActualParameterList", "pascal/pas_statement.c:pas_ProcStatement", "pascal/pas_expression.c:pas_FunctionDesignator", "pascal/pas_expression.c:pas_VarParameter", "pascal/pas_expression.c:pas_PointerFactor", "pascal/pas_codegen.c:pas_GenerateProcedureCall"]}
{"id": "C83", "title": "Argument lists are checked", "statement": "An argument list is read without an error only if there are as many arguments as parameters and each has the type of its parameter, and is a variable where the parameter is VAR; reading ends for every input; the sizes recorded for the debugger are those of the arguments.", "quantifier": "for all token sequences, lists of formal parameters and states of the compiler", "why_tests_cant": "All malformed argument lists of any length have to be considered.", "anchors": ["pascal/pas_procedure.c:pas_ActualParameterList", "pascal/pas_procedure.c:pas_ActualParameterSize", "pascal/pas_expression.c:pas_PointerFactor"]}
{"id": "C84", "title": "Procedures and functions do what their bodies mean", "statement": "The code of a call together with the code of the procedure or function it calls executes the statements of the body, with the parameters having the values of the arguments, the local variables their initial values, and the variables of surrounding blocks accessible; afterwards these variables have the values the statements give them, the stack and the registers are as before, the result of a function lies on top, and nothing else has changed.", "quantifier": "for all procedures and functions at any level with parameters of simple types, all bodies (of the statements of C68), all arguments and states of the machine", "why_tests_cant": "Bodies, levels of nesting, parameter lists and states are unbounded; errors in the layout of frames show only in particular combinations.", "anchors": ["pascal/pas_block.c:pas_Block", "pascal/pas_block.c:pas_ProcedureDeclaration", "pascal/pas_block.c:pas_FunctionDeclaration", "pascal/pas_block.c:pas_AddVarInitializer", "pascal/pas_initializer.c:pas_Initialization", "pascal/pas_statement.c:pas_CompoundStatement", "insn16/libexec/libexec_run.c:libexec_ProcedureCall"]}
{"id": "C85", "title": "The p-machine starts in a consistent state", "statement": "After libexec_Initialize the string, read-only data, stack and heap regions follow each other without overlap inside the allocated memory, the read-only data are at the addresses that instructions use for them, the frame header of the main program has level 0 and ends the static chain, and the registers are consistent.", "quantifier": "for all sizes of the regions, all read-only data, all contents of the memory before", "why_tests_cant": "All combinations of sizes and contents of memory; errors show only for particular sizes (odd ones, sums beyond 64K).", "anchors": ["insn16/libexec/libexec_run.c:libexec_Initialize", "insn16/libexec/libexec_run.c:libexec_Reset", "insn16/libexec/libexec_heap.c:libexec_InitializeHeap"]}
{"id": "C86", "title": "Main programs do what their statements mean", "statement": "The code of the main block of a program, executed from the start of the machine, allocates and initialises the global variables, executes the statements and reaches END with the global variables having the values that the statements give them.", "quantifier": "for all main blocks (declared variables and initial values as in C84, statements of C68), all sizes of the regions, all contents of the memory before", "why_tests_cant": "Programs, inputs and sizes of memory are unbounded.", "anchors": ["pascal/pas_program.c:pas_Program", "pascal/pas_block.c:pas_Block", "pascal/pas_initializer.c:pas_Initialization", "insn16/libexec/libexec_run.c:libexec_Reset"]}
{"id": "C87", "title": "Programs with recursive procedures do what their statements mean", "statement": "Procedures whose bodies call each other and themselves are compiled without an error, and a program that contains their code and that of the main block, executed from the start of the machine, reaches END with the global variables having the values that the statements and the calls give them, whenever the stack has room for the calls.", "quantifier": "for all lists of procedures (nested to any level, mutually recursive, with value parameters, local variables and initial values), all main blocks, all depths of calls, all sizes of the regions, all contents of the memory before", "why_tests_cant": "Recursion depth, nesting and programs are unbounded; an error in the static links shows only for particular combinations of the levels of caller and callee.", "anchors": ["pascal/pas_statement.c:pas_Statement", "pascal/pas_statement.c:pas_ProcStatement", "pascal/pas_block.c:pas_ProcedureDeclaration", "pascal/pas_block.c:pas_Block", "pascal/pas_program.c:pas_Program", "insn16/libexec/libexec_run.c:libexec_ProcedureCall"]}
{"id": "C88", "title": "Resolved code is executed like the code with labels", "statement": "Whatever a list of instructions with labels, calls and returns does (positions, symbolic labels, a list of places to return to), the machine does with the bytes that label resolution makes of the list, with addresses in the jumps and return addresses in the frames.", "quantifier": "for all well formed lists of instructions of less than 64K bytes, all executions of any length, all states", "why_tests_cant": "Executions, call depths and programs are unbounded; a wrong address shows only when the jump is taken from a place where sizes differ.", "anchors": ["insn16/popt/popt_finalize.c:pass1", "insn16/popt/popt_finalize.c:pass3", "insn16/libexec/libexec_run.c:libexec_Execute", "insn16/libexec/libexec_stkcall.c:pexec_ProcedureCall"]}
{"id": "C89", "title": "From the text of a program to the end of its execution", "statement": "A program with procedures that call each other and themselves is compiled without an error; when the labels of the output are resolved and the machine is started with the result, it exits after finitely many instructions, with the global variables having the values that the statements give them.", "quantifier": "for all programs of C87, all sizes of the regions, all contents of the memory before, all depths of calls for which the stack has room", "why_tests_cant": "The composition of compiler, label resolution, start and interpreter over all programs; each part could be right for its own tests and still disagree about addresses, frames or the entry point.", "anchors": ["pascal/pas_program.c:pas_Program", "pascal/pas_block.c:pas_Block", "insn16/popt/popt_finalize.c:popt_Finalization", "insn16/libexec/libexec_run.c:libexec_Initialize", "insn16/libexec/libexec_run.c:libexec_Execute"]}
{"id": "C90", "title": "The code of a standard function computes its result", "statement": "A call of Abs, Sqr, Pred, Succ, Ord, Odd or Chr is accepted for every argument of the types it is defined for, and its code pushes the absolute value, the square, the predecessor, the successor, the number, the parity or the character, leaving registers and all words of the stack in use unchanged, whenever the result is a number of the type.", "quantifier": "for all functions, all argument expressions (which may contain such calls), all values of their variables, all states with room", "why_tests_cant": "Arguments are unbounded expressions; a wrong instruction shows only for particular types (long numbers, truth values) or values (sign, overflow).", "anchors": ["pascal/pas_stdfunc.c:pas_StandardFunction", "pascal/pas_stdfunc.c:pas_AbsFunc", "pascal/pas_stdfunc.c:pas_SqrFunc", "pascal/pas_stdfunc.c:pas_PredFunc", "pascal/pas_stdfunc.c:pas_SuccFunc", "pascal/pas_stdfunc.c:pas_OrdFunc", "pascal/pas_stdfunc.c:pas_OddFunc", "pascal/pas_stdfunc.c:pas_ChrFunc"]}
{"id": "C91", "title": "The output of the compiler can be resolved", "statement": "For every program with procedures that the compiler accepts, its output consists of instructions with operands in range, END stands only at the end, every label is defined once, every branch and call goes to a defined label, and the label resolution of the optimizer's last pass ends without an error.", "quantifier": "for all programs with procedures of any number and nesting, all label counters with enough labels left", "why_tests_cant": "Label numbers are taken at different places of the recursive descent; a label used twice or not placed shows only for particular nestings.", "anchors": ["pascal/pas_block.c:pas_Block", "pascal/pas_block.c:pas_ProcedureDeclaration", "pascal/pas_statement.c:pas_Statement", "insn16/popt/popt_finalize.c:popt_Finalization"]}
{"id": "C92", "title": "A compiled program, resolved and executed, does what its text says", "statement": "For every program with procedures that call each other and themselves, if its code has less than 64K bytes, then label resolution succeeds, and the p-machine started with the result exits after finitely many instructions with the global variables as the statements say and the stack as at the beginning.", "quantifier": "for all programs, all depths of recursion, all stack sizes that are large enough", "why_tests_cant": "It composes compiler, label resolution, loader state and machine over unbounded recursion and loops.", "anchors": ["pascal/pas_program.c:pas_Program", "pascal/pas_block.c:pas_Block", "insn16/popt/popt_finalize.c:popt_Finalization", "insn16/libexec/libexec_run.c:libexec_Initialize", "insn16/libexec/libexec_run.c:libexec_Execute"]}
{"id": "C93", "title": "Write and WriteLn write the text of their parameters", "statement": "For every Write or WriteLn statement with numbers, characters and strings as parameters, with or without a file and with or without field widths, the compiler accepts it without an error, and the code it generates appends exactly the decimal numbers, characters and strings, right-justified to the field widths, and the end of line for WriteLn, to the file it names; it leaves the other files, the stack and the variables unchanged.", "quantifier": "for all statements with any number of parameters and any expressions, all values of the variables, all contents of the section of constants and of the files", "why_tests_cant": "The number of parameters, the expressions and the numbers are unbounded; a duplicated or lost file number on the stack shows only in later statements.", "anchors": ["pascal/pas_procedure.c:pas_WriteProc", "pascal/pas_procedure.c:pas_WritelnProc", "pascal/pas_procedure.c:pas_WriteProcCommon", "pascal/pas_procedure.c:pas_WriteText", "pascal/pas_procedure.c:pas_WriteFieldWidth", "pascal/pas_procedure.c:pas_GenerateFileNumber", "libpoff/pfwrodata.c:poffAddRoDataString", "insn16/libexec/libexec_sysio.c:libexec_sysio"]}
{"id": "C94", "title": "Read and ReadLn give the variables the values in the text", "statement": "For every Read or ReadLn statement with integer and character variables, with or without a file, the compiler accepts it without an error, and if the text of the file has the values in lines of their own, the code it generates gives each variable its value, takes exactly these lines from the file (ReadLn without variables: the rest of the line), and leaves the other variables, the other files and the stack unchanged.", "quantifier": "for all statements with any number of variables, all values of the variables before, all texts and all contents of the other files", "why_tests_cant": "The number of variables and the texts are unbounded; a lost file number on the stack or an exchanged address shows only in later variables.", "anchors": ["pascal/pas_procedure.c:pas_ReadProc", "pascal/pas_procedure.c:pas_ReadlnProc", "pascal/pas_procedure.c:pas_ReadProcCommon", "pascal/pas_procedure.c:pas_ReadText", "pascal/pas_procedure.c:pas_GenerateFileNumber", "insn16/libexec/libexec_sysio.c:libexec_ReadInteger", "insn16/libexec/libexec_sysio.c:libexec_ReadChar", "insn16/libexec/libexec_sysio.c:libexec_ReadLn"]}
{"id": "C95", "title": "The optimizer's pass for strings ends and deletes only unnecessary duplications", "statement": "For every program, the optimizer's pass for strings comes to an end; its output is the program up to its END, of which only NOPs and STRDUP calls between a constant's address and instructions that do not change the string have been deleted; nothing else is lost, repeated or moved by the window. Programs without a constant's address directly in front of STRDUP are not changed at all, and the deletions do not change what a program does.", "quantifier": "for all programs of any length", "why_tests_cant": "The window of 16 instructions slides over the program; losing or repeating an instruction at a window boundary depends on the positions of deleted instructions.", "anchors": ["insn16/popt/popt_strconst.c:popt_StringConstOptimize", "insn16/popt/popt_strconst.c:popt_StringLocalOptimization", "insn16/popt/popt_strings.c:popt_StringOptimization", "insn16/popt/popt_peephole.c:popt_SetupPeephole", "insn16/popt/popt_peephole.c:popt_UpdatePeephole", "insn16/popt/popt_peephole.c:popt_DeletePCode"]}
{"id": "C96", "title": "A P-code listing shows the program", "statement": "Two programs of executable instructions with the same listing are the same program; every instruction stands on a line of its own behind its address; every file of bytes has a listing (no name table is read out of bounds); an opcode is listed as invalid if and only if the machine does not execute it.", "quantifier": "all programs (lists of instructions with all operand values) of any length; all byte sequences", "why_tests_cant": "A test lists a few programs and compares with a recorded text; that no two of the programs are listed alike, and that no byte sequence leads outside a table, concerns all of them.", "anchors": ["insn16/libinsn/insn_disasm.c:528-692 insn_DisassemblePCode", "insn16/libinsn/insn_dislongop.c:202-256 insn_DisassembleLongOpCode", "insn16/plist/plist.c:215-292 plist_DumpProgramData", "insn16/libexec/libexec_debug.c:407-411"]}
{"id": "C97", "title": "The optimizer as a whole preserves the program", "statement": "The eight passes applied to the sliding window, repeated until nothing changes, and the output of the window's first instruction followed by its refilling, turn a program into one that does the same; labels, procedure ends, calls and operations on files, strings, sets and real numbers stay, all of them and in their order; nothing between the first label and END is lost or left over.", "quantifier": "all programs (lists of well-formed instructions with a label) of any length, all numbers of iterations", "why_tests_cant": "The result depends on how windows of sixteen instructions happen to slide over the program and on which pass comes first; a test sees a few programs only.", "anchors": ["insn16/popt/popt_local.c:60-121 popt_LocalOptimization", "insn16/popt/popt_peephole.c:160-352", "insn16/popt/popt_constants.c", "insn16/popt/popt_branch.c", "insn16/popt/popt_loadstore.c", "insn16/popt/popt_longconst.c"]}
{"id": "C98", "title": "Opening, closing and flushing files", "statement": "The code of Reset, Rewrite, Append, CloseFile, Page and Flush performs this operation on the file named, and changes neither the other files nor the stack; a size of records that is given becomes the file's; an operation that is not possible ends the program with an error.", "quantifier": "all such statements, all files and record sizes (expressions), all states of the machine and of the table of files, all answers of the operating system", "why_tests_cant": "Which combinations of open, closed and failing files occur depends on the program and on the operating system; tests try a few of them.", "anchors": ["pascal/pas_procedure.c:755-873 pas_OpenFileProc, pas_FileProc", "pascal/pas_procedure.c:2394-2500 pas_StandardProcedure", "insn16/libexec/libexec_sysio.c:384-474, 859-870"]}
{"id": "C99", "title": "Asking for the end of a file or of a line", "statement": "The code of Eof, Eoln, SeekEof and SeekEoln pushes true exactly if nothing is left of the file, if the end of the line read last was passed, if only blanks are left of the file, if only blanks are left of the line; it changes no other file, and Eof and Eoln change nothing; if the file is not open the program ends with an error.", "quantifier": "all such calls, all files and contents, all states of the machine and of the table of files", "why_tests_cant": "The contents of files and the positions in them are unbounded; tests try a few files and rarely read on after SeekEof or SeekEoln.", "anchors": ["pascal/pas_stdfunc.c:349-391 pas_FileFunc", "pascal/pas_stdfunc.c:1222-1240 pas_StandardFunction", "insn16/libexec/libexec_sysio.c:921-995 libexec_Eof, libexec_Eoln", "insn16/libexec/libexec_sysio.c:1108-1202 libexec_SeekEof, libexec_SeekEoln"]}
{"id": "C100", "title": "Positions in files", "statement": "FilePos(f) and FileSize(f) are accepted for a file f, and nothing else is; the code of Seek(f, w) hands the number of the file f and the value of w to the operation of the machine.", "quantifier": "all calls, all files, all expressions for the position, all states of the machine", "why_tests_cant": "The operands on the stack are all words: with a wrong order a file number and a position are still found, and for some values even the right ones.", "anchors": ["pascal/pas_stdfunc.c:396-429 pas_FilePosFunc", "pascal/pas_procedure.c:879-923 pas_SeekProc", "insn16/libexec/libexec_sysio.c:1315-1323 libexec_sysio"]}
{"id": "C101", "title": "Halt and Exit end the program", "statement": "The code of Halt ends the program with the exit code 0, that of Exit(w) with the value of w, and nothing that follows is executed; nothing but Halt and Exit(w) with an integer expression w is accepted.", "quantifier": "all such statements, all expressions and states of the machine, all instructions that follow", "why_tests_cant": "Exit codes are values of arbitrary expressions; tests see a few of them.", "anchors": ["pascal/pas_procedure.c:376-411 pas_ExitProc, pas_HaltProc", "insn16/libexec/libexec_oslib.c:342-347 libexec_OsOperations", "insn16/libexec/libexec_runloop.c:59-83 libexec_RunLoop"]}
{"id": "C102", "title": "Addr yields the address of a variable", "statement": "The code of Addr(v) puts the address of the variable v on the stack and changes nothing else: for a parameter passed by reference the address of the variable passed; procedures, functions, array elements and record fields have addresses too.", "quantifier": "all variables of all levels and offsets, all states of the machine with room for a word", "why_tests_cant": "The address depends on the frame of the procedure at run time; tests see a few frames.", "anchors": ["pascal/pas_stdfunc.c:145-204 pas_AddrFunc", "pascal/pas_codegen.c:247-271 pas_GenerateStackReference"]}
{"id": "C103", "title": "SizeOf yields the size of a variable or type", "statement": "The code of SizeOf(v) puts the number of bytes of the variable or type v on the stack, as an Integer, and changes nothing else: for a parameter passed by reference the size of the variable passed; as a constant SizeOf(v) has this value and generates no code.", "quantifier": "all variables and types of all sizes, all states of the machine with room for a word", "why_tests_cant": "Sizes range over all declarations; the cases where the size does not fit are beyond ordinary test programs.", "anchors": ["pascal/pas_stdfunc.c:1312-1369 pas_SizeOfFunc", "pascal/pas_constfunc.c:293-296 pas_StandardFunctionOfConstant"]}
{"id": "C104", "title": "Breakpoints of the debugger", "statement": "BS adds the address to the list of breakpoints, unless it is listed, eight are listed or the address is not in the program; BC n removes the n-th and no other; the list never contains an address twice.", "quantifier": "all sequences of commands, all lists of breakpoints", "why_tests_cant": "Lists and positions are arbitrary; the array is shifted in place.", "anchors": ["insn16/libexec/libexec_debug.c:186-216, 527-583 pdbg_AddBreakPoint, pdbg_DeleteBreakPoint"]}
{"id": "C105", "title": "Execution under the debugger", "statement": "Go, Run, Step and Next execute the instructions the machine would execute without the debugger and stop behind the first one after which there is a reason: an error, the end of the code, a breakpoint, for Step one instruction, for Next the return from the procedure called; the trace shows the last 16 instructions in their order.", "quantifier": "all machines, all breakpoints, all states, any number of instructions", "why_tests_cant": "The number of instructions and the state of the ring buffer are unbounded or arbitrary.", "anchors": ["insn16/libexec/libexec_debug.c:144-185, 488-522, 589-606, 626-725 pdbg_DebugPCode, pdbg_PrintTraceArray"]}
