# Verification of the Pascal p-code tool suite: design

## 1. What is verified

`/repo` is a Pascal tool chain in C: compiler (`pascal/`), optimizer
(`insn16/popt`), linker (`plink/`), object-file library (`libpoff/`),
instruction library (`insn16/libinsn`) and virtual machine (`insn16/libexec`).
The properties in `properties.jsonl` are proved against a hand-written Rocq
(Coq 8.16.1) model of that C code in `rocq/theories`.  The code was read as
text; it was neither built nor run.

The model is written function by function.  Every definition carries a comment
with the file and the lines of the C code it models and says where it was
simplified.

| Files | Contents |
|---|---|
| `Words.v`, `State.v`, `Opcodes.v`, `Machine.v`, `*Model.v` | definitions that model the code, no proofs |
| `*Spec.v`, `OptExcept.v`, `OptPassSpec.v` | specifications; they do not use the helper functions of the model |
| `Props*.v` | the property theorems only, each closed by `exact`, with `Print Assumptions` and a non-vacuity `Example` |
| all others | lemmas, witnesses and concrete cases |

`MANIFEST.json` lists the theorems of each property.  A property that the code
violates has a theorem `..._refuted` (a witness, often a whole class of
witnesses) and the strongest restriction proved, `..._partial`; the comment at
each of these says what is missing.

Build: in `rocq`, `coq_makefile -f _CoqProject -o Makefile && make -j4`
(about 7 minutes).

## 2. Modelling decisions

* Numbers are `Z`; every C truncation (to 8, 16 or 32 bits) is an explicit
  `mod`, signed views are explicit functions (`Words.v`).  `int` has 32 bits in
  two's complement; conversion of out-of-range values to signed types wraps
  (defined by gcc and clang).  The host of the virtual machine is
  little-endian (the object file library is modelled for both).
* Undefined behaviour of C is a distinct outcome: access outside of the
  allocated `dstack` or `ispace`, misaligned structure access, signed overflow,
  division by zero, `INT_MIN / -1`, shift counts of 32 or more,
  `memcpy` of overlapping areas, uninitialised variables, array indices out of
  bounds.  A theorem that claims a normal outcome therefore excludes it.
* The data stack is a map from word index to 16-bit word (`mem`) with a size.
  A word access at byte address `a` uses word `a/2`, as in the code
  (`addr >> 1`); a byte access picks a half.
* Registers are `uint16_t` and wrap.
* A step of the machine returns `Ok s | Err code s | UB | Hang | Ext`.
  `Err eEXIT` is the normal end.  `Hang` is a loop of the library that never
  ends; it is decided with a fuel that exceeds the number of distinct states of
  the loop.  `Ext` are instructions that are not part of the model; no theorem
  says anything about them.
* Loops are structural recursion or recursion on fuel; running out of fuel is
  an outcome of its own, never a normal result.

### Simplifications, per model file

* `Machine.v` (libexec_run.c, libexec_runloop.c): oFLOAT and oOSOP are `Ext`,
  oSTRLIB and oSYSIO are modelled as functions of their own (`string_op`,
  `sysio`) and are `Ext` in the dispatcher.  The debugger and the breakpoints
  are not modelled.
* `HeapModel.v` (libexec_heap.c): debug output omitted.  Bit fields are laid
  out from the least significant bit (gcc on little-endian hosts).
* `StringModel.v` (libexec_stringlib.c): conversions of numbers to strings and
  `val` (snprintf, strtol) are `Ext`.
* `SysioModel.v` (libexec_sysio.c): a stdio stream is the list of characters
  not yet read, the list of characters written and the end-of-file flag.  What
  the operating system decides (does fopen succeed, with what contents; does a
  transfer fail) is an argument, quantified in the theorems.  Reals, file
  position and seek, and directories are not modelled (`SX`).
* `EncodeModel.v` (insn_addopcode.c, insn_getopcode.c, insn_generate.c,
  insn_genlongop.c): program data is a list of bytes.
* `PoptModel.v`, `PoptLongModel.v` (insn16/popt): the table of 16 entries and
  the pointer list are lists; the relocation bookkeeping during the optimization
  is not modelled.
* `FinalModel.v` (popt_finalize.c, pflabel.c), `LinkModel.v` (plink/*.c,
  insn_relocate.c): offsets are unbounded integers (`uint32_t` in C); of a
  symbol only name, type, flags and value are kept; the growable arrays do not
  run out of host memory.
* `PoffModel.v` (libpoff): reading and writing the host file fails only at its
  end; the padding byte of the header is 0; the string table is below 2 GB.

* `TokenModel.v` (pas_token.c, look-up functions of pas_symtable.c): one source
  file without include files; the string stack is reduced to the text of the
  current token and has no size limit; names hold no NUL; the text given to
  sscanf stands for a real number; the list file is not written; of a symbol
  only name, kind and constant value are kept.
* `ExprModel.v` (pas_expression.c, pas_codegen.c): the tokens are given as a
  list; of a symbol only level, offset, size or the type it names are kept;
  error() records the code and returns.  Operands are constants and variables of
  the integer, long, character and Boolean types, casts between them,
  parenthesised expressions and the functions Abs, Sqr, Pred, Succ, Ord, Odd and
  Chr (pas_stdfunc.c); everything else is `NotModelled`.
* `StmtModel.v` (pas_statement.c, pas_procedure.c): assignment to simple
  variables, IF, CASE, REPEAT, WHILE, FOR, BEGIN-END, Break and Continue; all
  other statements are `SNotModelled`.  Reading an uninitialised variable of the
  compiler is `SUndefined`.  Expressions are those of `ExprModel.v`.
* `ConstModel.v` (pas_constexpr.c, pas_constfunc.c): the type looked for is
  neither real nor string; of the type symbol only the least element is kept.
  Real and string constants and SizeOf are `KNotModelled`; signed overflow,
  invalid shifts, accesses outside of the set array and uninitialised variables
  are `KUndefined`.

* `DeclModel.v` (pas_block.c): type definitions, variables and formal parameters.
  Words are already cut (`raw`), names are numbers.  Initial values, lengths of
  short strings and units are left out; following a null pointer and reading a
  union as what it is not are `UB`.
* `ArrModel.v` (pas_expression.c, pas_statement.c): `pas_ArrayIndex`, a factor that
  is an element of an array, the assignment to an element; over the symbol table
  of `DeclModel.v`.  Elements of simple types only: not records, strings, sets,
  files, pointers; not whole arrays; not VAR parameters (addresses).

* `ActModel.v` (pas_procedure.c, pas_statement.c, pas_expression.c, pas_codegen.c):
  calls: argument lists, procedure statements, function designators with
  parameters and results of simple types, by value and VAR.  A function
  designator stands alone: it is not a factor of `ExprModel.v`, and arguments
  contain no calls.  The theorems of C82 speak of any body that returns with the
  stack pointer and the frame header intact.
* `BlockModel.v` (pas_block.c, pas_initializer.c, pas_statement.c, pas_program.c):
  blocks from the statement part on: label, allocation of the local variables,
  initial values, compound statement, release, RET or END.  What the declarations
  leave behind (labels, `g_dStack`, the code of nested procedures, initializers)
  is a parameter.  No finalization of strings, no export of symbols.
* `StartModel.v` (libexec_run.c): libexec_Initialize and libexec_Reset: sizes of the
  regions, copy of the read-only data, frame header of the main program, registers,
  heap.  malloc succeeds; the file table is in `SysioModel.v`.
* `WriteModel.v` (pas_procedure.c, pfwrodata.c): Write and WriteLn to text files, the
  file number, field widths, strings in the section of constants.  Not modelled: real
  numbers, string variables, arrays, binary files, files as parameters.
* `ReadModel.v` (pas_procedure.c:415-665): Read and ReadLn from text files of integers
  and characters.  Not modelled: real numbers, strings, variables that are not simple,
  binary files, files as parameters.
* `FileModel.v` (pas_procedure.c:755-873): Reset, Rewrite, Append, CloseFile, Page and
  Flush.  Not modelled: AssignFile, files as parameters or elements of arrays.
* `EofModel.v` (pas_stdfunc.c:349-391, 1222-1240): Eof, Eoln, SeekEof and SeekEoln. Not
  modelled: files that are VAR parameters, pointers to files, arrays of files.
* `PosModel.v` (pas_stdfunc.c:396-429, 1242-1250, pas_procedure.c:879-923,
  libexec_sysio.c:1315-1323): FilePos, FileSize and Seek, and the operands that the machine
  takes for Seek. Not modelled: ftell and fseek, files as parameters or elements of arrays.
* `HaltModel.v` (pas_procedure.c:376-411, libexec_oslib.c:342-347, libexec_runloop.c:59-83):
  Halt and Exit, and the end of the execution. Not modelled: the other functions of
  libexec_oslib.c, except New and Dispose (`HeapModel.v`).
* `AddrModel.v` (pas_stdfunc.c:145-204): Addr. The types exprAnyPointer and exprUnknown are a boolean.
* `SizeModel.v` (pas_stdfunc.c:1312-1369, pas_constfunc.c:293-296): SizeOf, in expressions and as a constant; tAllocSize is a parameter.
* `DebugModel.v` (libexec_debug.c:140-216, 484-725): breakpoints, execution and trace of the
  debugger; the machine is a parameter (section variables, generalized). Not modelled: the
  command line, the output, watch points.
* `StrOptModel.v` (popt_strconst.c, popt_strings.c): the pass of the optimizer for
  strings, with the window of popt_peephole.c.  Not modelled: the relocations.
* `DisModel.v` (libinsn/insn_disasm.c, insn_dislongop.c, plist/plist.c): the tables of
  names and formats, entry by entry, the text of one line, the loop over the program.
  A read outside a table is a distinct outcome.  Not modelled: the line numbers that
  plist inserts, the dumps of the other sections.
* `RecModel.v` (pas_statement.c, pas_block.c, pas_program.c): pas_Statement with the
  case sPROC, and blocks, procedures and programs of such statements.  What the name
  of a procedure stands for is a parameter (`procs`).

### Not modelled

The compiler (`pascal/`) beyond its tokenizer, expressions and constants of
ordinal types, set constants, the statements above, elements of arrays, calls and declarations of types,
variables and parameters, the regression driver, `plist`, the 32-bit
instruction set (`insn32`), floating point, OS library calls other than
New/Dispose, the loader, the debugger, NuttX-specific code.

## 3. Specifications

* Instruction semantics (`VmSpec.v`, `LongSpec.v`, `SetSpec.v`) are relations on
  integers: `signed16 w z`, `word16 w z`; sets are predicates on 0..63; a stack
  is described by the words at given positions, with a frame condition for all
  others.
* Heap (`HeapSpec.v`): histories of New, Dispose and stores, with a ledger of
  the live blocks.
* Strings (`StringSpec.v`): a string variable or a string on the stack denotes a
  list of characters; results are given by `firstn`, `skipn`, `++`;
  `only ranges s s'` is the frame condition.
* System I/O (`SysioSpec.v`): histories of operations with a ledger of the
  numbers handed out and of the modes in which files were opened.
* Optimizer (`OptSpec.v`): a list of instructions with symbolic labels runs to
  its end, jumps to a label, or stops (error, undefined behaviour, instruction
  not modelled).  `refines x y`: in every state in which `x` runs to its end or
  jumps, `y` does the same, with the same registers and the same memory except
  for dead words above the stack pointer (at most `DEPTH` = 4 words).  This is
  assumed of states in which the variables accessed are not among those dead
  words and in which no store of the window overwrites a static link in use
  (`clean`).  `preserved t t'`: the code of the table `t'` results from that of
  `t` by replacing windows by windows that refine them.  The windows contain none of
  the instructions `marks` (labels, returns, ends, calls, SYSIO, STRLIB, OSOP, FLOAT,
  SETOP, long branches, line numbers), so that these are neither deleted nor moved nor
  duplicated.
  The exceptions are listed in `OptExcept.v`.  For each the theorems
  `C35_folding_refuted` ... `C39_long_refuted` exhibit the miscompilation (or
  the undefined behaviour of the optimizer), except for `ub_inds` (sum of two
  stack adjustments beyond 16 bits) and `lb_multi` (oLDXM, oLDSXM), which are
  not known to be wrong but are outside of the proof.
* Object files (`PoffSpec.v`): what the tables mean as big-endian fields.
* Tokenizer (`TokenSpec.v`): `ahead c l`: the characters from the current one on
  are `l`; `settles`: the result of getToken for every sufficient fuel;
  `never`: there is no result.
* Expressions (`ExprSpec.v`): abstract syntax, the grammar as a relation between
  token lists and syntax, types, values over unbounded integers (`None` when an
  intermediate result leaves its type), and `computes`: what executing the code
  must push, in every state in which the variables have given values.
  `elax` is the weaker type system that the compiler enforces.
* Statements (`StmtSpec.v`): abstract syntax, grammar, the relation `means`
  between the values of the variables before and after, and how the statement
  ended (normally, by Break, by Continue); `for_each` is the definition of FOR in
  Pascal.  Code with labels runs by `step`; `placed` and `ready` say where the
  variables and the static links are; `effect` is the change of the state
  allowed.
* Constants (`ConstSpec.v`): grammar, values (sets are predicates), and
  `represents`: how g_constantToken, g_constantInt and g_constantSet encode a
  value.  `cgood` describes the expressions for which the value found is right;
  `clax` is the type system enforced.
* Declarations (`DeclSpec.v`): the bytes a variable occupies, types as written
  and as recorded in the symbol table, sizes and offsets.
* End of declarations (`EndSpec.v`): `circular`, the parents of a type lead around
  in a circle; the number of words left bounds the fuel.
* Calls (`ActSpec.v`): parameters lie in front of the frame, the last one closest to
  it, the result of a function in front of them; `calls`: what the code of a call
  does around any body that satisfies `may_return`.  `llist` is what is accepted.
* Blocks (`BlockSpec.v`): `cstep` adds calls and returns to `step`, with a list of
  the positions to return to; `performs`: a call and a body, executed, have the
  effect that the statements mean; `surrounded`: the static chain leads to the
  frame of the surrounding procedure.  A call stores the address of the next
  instruction (`address_of`, the bytes in front of it), and a return must find the
  address of the position kept in the list.
* Running the bytes (`RealRun.v`, `RealMain.v`): what `cruns` says of the list of
  instructions is what `run` of `Machine.v` does with the bytes that `finalize` makes
  of it (C88); with the compiler and the start of the machine this is C89.  The
  optimizer between them is left out there.
* Output of the compiler (`RecText.v`): `made`, the code of the procedures of a
  program, with the label counter before and after it.  That it satisfies what the
  label resolution needs (`program_text`, `labels_once`, `references_ok`) is C91;
  C92 is C89 with these facts proved, not assumed.
* Write and WriteLn (`WriteSpec.v`): `numeral_of`, decimal notation of a number, stated
  by the value of the digits; `item_text`, the text of a parameter; `gwrite`, the
  statements; `constants`, the strings lie in the section of constants; `got`, a file
  has got characters and the other files are as before.  `WriteModel.exec_io` executes
  instructions one after the other, SYSIO by `SysioModel.sysio`.
* Read and ReadLn (`ReadSpec.v`): `gread`, the statements; `denotes`, the number with
  which a line starts, stated by the value of the digits; `takes`, each variable gets
  its value from a line of its own; `consumes`, the text that a statement takes from
  the file; `read_upto`, what is left of the file, the other files as before.
* Opening and closing files (`FileSpec.v`): `gfile`, the statements; `possible`, when an
  operation can be done; `did`, what it changes in the table of files; `operates`, the
  code does the operation if and only if it is possible (only if: without record size).
* Asking for the end (`EofSpec.v`): `gquery`, the calls; `holds`, when the answer is yes;
  `suited`, the files for which it is proved; `answers`, what the code has to do.
* Positions in files (`PosSpec.v`): `gpos` and `gseek`, the calls.
* The end of a program (`HaltSpec.v`): `gend`, the statements; `ends_with`, the code ends the
  program with this exit code, whatever follows.
* Pass for strings (`StrOptSpec.v`): `drops`, the deletion of a NOP or of a STRDUP that
  stands between LAC and instructions which use the string; `shortened`, its closure.
* The whole optimizer (`OptRunSpec.v`): `met k m n l`, the tables on which the eight
  passes work in the optimization of `l`; `harmless`, no exceptional window among the
  visible instructions; `marked_ops`, the instructions `marks` of a program;
  `troublesome`, the opcodes which occur in exceptional windows, except INDS; a `plain`
  program has none of them, and its stack adjustments (INDS) add up to less than 32768
  bytes.  Termination is proved with a measure of the window: the number of its
  instructions, loads and constants counted twice, and the distance of the constants
  from the end of the window.
* Listing (`DisSpec.v`): `listable`, an instruction that the machine executes (or a
  pseudo operation) with a valid sub-function; injectivity is stated without a spec of
  the text.
* Start (`StartSpec.v`): the regions follow each other in the order strings,
  read-only data, stack, heap, each at an even address; `startable`: their sizes fit
  into 64K; `at_start`: registers and frame header of the main program.
* Procedures (`RecSpec.v`): statements with calls; `calling decls n` is what a call
  means when calls nest at most n deep: new variables, the parameters have the values
  of the arguments, the body acts on the variables of the surrounding blocks.
  `declared`: text and description of a procedure agree; `visible`: the procedure may
  be called here, and the variables of its surrounding blocks are those of the
  caller's of the levels up to its own (`RecCode.v`: the code the compiler makes).
* Linker (`LinkSpec.v`), label resolution (`FinalSpec.v`): modules, definitions,
  references, addresses.

## 4. Where the code disagrees with the property

Each of these is a theorem of the model; the line numbers refer to `/repo`.

| Property | Finding |
|---|---|
| C03 | `oLONGOP24` is defined with octal `016` (insn16/include/insn16.h) and equals 0x7f: it has no 16-bit operand bit. Every long branch is misread and executes as an illegal instruction |
| C06 | DIV, MOD, UDIV, UMOD by zero, shift counts of 32 or more, UMUL overflow are undefined behaviour (libexec_run.c:330-372) |
| C10 | LDSX adds the index before the sign of the offset is examined, STSX after (libexec_run.c:1239-1330) |
| C13 | addresses are never checked; a two-instruction program reads outside of the stack |
| C14 | long arithmetic is done in `int32_t`: overflow is undefined |
| C15 | ordered long comparisons compare in the opposite order; DULT tests `result < uparm2` (libexec_longops.c:347-441) |
| C16 | DXCHG exchanges overlapping values (offset 1 instead of 2, :450-455) |
| C18 | member 64 is accepted (`>` instead of `>=`, libexec_setops.c:196-215) |
| C19 | Include and Exclude have no range check |
| C21 | Subrange uses `16 - member1` instead of `16 - member1 % 16`: endless loop over the stack or a wrong set |
| C22, C23 | inserting before the tail of the free list writes the wrong links; offset 0 is both the first chunk and the end of list; a request of 65530 bytes wraps to a small one |
| C24 | the terminator may lie beyond the data stack; sizes are cut to 15 bits |
| C25 | a stale header inside a new block defeats the double-disposal check |
| C26, C27 | positions 0 and beyond the end are not checked |
| C28 | the copy of the empty string constant fails with eNOMEMORY and the source is never freed |
| C29 | a start position behind the end finds the scratch copy of the pattern; NUL ends the search |
| C31 | capacities above 4095 are masked |
| C32 | a string that does not fit is not appended at all; STRCATC compares with the unmasked allocation word |
| C33 | libexec_Str2BStr computes the clipped length and does not use it |
| C34 | the check is made before alignment and ignores the read-only data |
| C35-C39 | see `OptExcept.v`: unsigned tests of signed constants (GTZ, LTEZ), division by shifting, comparisons with 1 and -1, signed division folded as unsigned, 0 - x, LAR moved, NOT/NEG before jumps, byte store-load, indexed stores with anything in between, all long tests and comparisons, DCNV, shifts by zero |
| C40 | two constants in front of oUDIV make popt_BinaryOptimize loop for ever |
| C41, C42 | the unsigned jumps are missing from pass3 (popt_finalize.c:373-385) and insn_Relocate (insn_relocate.c:75-88) |
| C46, C47 | the file table is swapped with a byte index into a 32-bit array; debug records are bounded by the size of the relocation section (pfswap.c:139-233) |
| C49 | the last line record is never found (pflineno.c:264-309) |
| C51 | the saturation limits are exchanged (libexec_sysio.c:162-207); -32768 is read as -32767 |
| C52 | the standard files can be freed and their numbers handed out |
| C53 | RESETR/REWRITER overwrite the error code of the open; `size_t < 0` never holds, so failing WriteString and WriteBinary are not noticed |
| C54 | an empty line is not recognised (`len > 0` where len is the length without the newline) and ReadLn then skips the next line |
| C56 | a module without file names leaves outOffset uninitialised (plink.c:390-416) |
| C57 | '%' is tested twice instead of '$' and '%' (pas_token.c:1044-1056): $ is not recognised and binary numbers are read as hexadecimal; % without digits keeps the previous value; large literals are passed to sscanf unchecked |
| C58 | `g_tknUInt = *g_tokenString` sign-extends characters from 128 on |
| C59 | a // comment ends with the line buffer, not with the line |
| C60 | comments are not ended by the end of the file; behind it the last line is read again |
| C63 | alternative names (Text, Close, LongInt, ...) are replaced before symbols are looked up but not when they are declared |
| C65 | LongWord uses the signed DADD/DSUB/DNEG; ordered comparisons of characters and truth values have no opcode (oNOP) and generate nothing (pas_expression.c:3864-4060); an integer constant is never of type Word, so `w shl 1` and `w = 1` are rejected; constants from 32768 to 65535 are Integer; LongInteger(true) is 65535 |
| C66 | the types of the factors of *, DIV, MOD and AND are not compared (:622-625 reports for shifts only) |
| C68 | Continue in REPEAT jumps to the start of the body instead of the test (pas_statement.c:1603-1610); FOR increments before it tests, so that it does not end at the largest integer; the initial value is assigned before the final value is evaluated (:1975-2010); the FOR variable is always loaded and stored as a word (:1958-2040); without TO or DOWNTO jmpOp and modOp are used uninitialised (:1987-2003); CASE constants True and above 65535 are rejected, negative ones are no constants, their types are not checked (:1779-1859); a long CASE selector is compared and dropped as one word |
| C69 | the label counter wraps at 65536: labels repeat, and label 0 means "not in a loop" |
| C71 | a real number is accepted as a case constant; the value compared is the last integer read (pas_statement.c:1796-1808) |
| C72 | Or of integers is computed as a difference (pas_constexpr.c:328-338); the relational operator is not skipped, so that every relation is rejected (:879-904); Odd parses a second, ordinary expression (pas_constfunc.c:206); Ord(true) is -1, Succ(false) is 1; a parenthesised constant is not a factor |
| C73 | the range loop uses `16 - firstBitNo` as the number of bits in the first word and the tail count for the last one (:802-862): only the ranges of `good_range` are right, others leave the array or add elements; a range overwrites the words it touches; a - b is computed as b - a, a + b + c as a + c (:355-368); intersections are rejected; elements are not checked against the size of a set |
| C74 | Odd(3 4) is accepted and generates code; Sqrt(16) and the other real functions yield their integer argument; after "invalid signed constant" termInt is used uninitialised |
| C76 | a file variable is not aligned (pas_block.c:337-537); offsets are uint16_t and wrap without an error (pas_symtable.c:535-557) |
| C77 | fields declared together are dropped from the list of fields, except the first, and keep offset 0 (pas_block.c:2304-2370); the element size of an array is that of the type at the end of the chain of parents, so that arrays of arrays, of pointers and of named pointers are too small or too large; the number of elements is a uint16_t; sizes above 64K are kept in the type and cut when a variable is made |
| C78 | after "too many indices" the null pointer behind the last index type is used (pas_expression.c:4222-4240); fewer indices than dimensions are accepted; an index is neither checked nor, when constant, compared with the bounds; an array indexed by a named range of characters wants an Integer as index (:4244-4260) |
| C79 | literals 32768…65535 as bounds wrap around silently, also behind a minus sign (pas_block.c:1013-1046); `red..blue` is rejected because the symbols themselves are compared, not their type (:1166-1170); a constant below 0 is rejected as overflow; enumerated constants are read with `getToken`, so names of outer levels cannot be reused (:979); `int16_t nObjects` lets sets of more than 32767 elements pass (:1538-1553) |
| C80 | parameterOffset is an int16_t and wraps (pas_block.c:3450-3463) |
| C81 | `p = ^p`, `t = array [0..1] of t` and mutually recursive pointers make pas_GetBaseTypePointer (pas_expression.c:4575-4599) loop forever when a variable of the type is declared; `var x : ;`, an array indexed by a range of characters or of negative numbers, a packed record as the type of a variable and a pointer field to an unknown type make the compiler follow a null pointer |
| C82 | the container of a function result is not cleared and a result of one byte is stored with STSB (pas_expression.c:2959-3035): the high-order byte of the word is what the stack contained, and comparisons use the whole word |
| C83 | a value parameter of a range of characters is read as an Integer expression, characters are rejected (pas_procedure.c:2661-2700); pas_ActualParameterSize (:2538-2600) gives a VAR parameter the size of the variable, though its comment wants it to agree with the argument list; arguments are checked no better than expressions (C66) |
| C84 | pas_AddVarInitializer stores the value of a LongInteger or LongWord variable in the 16-bit member iOrdinal, and pas_SetInitialValues pushes two words, of which the second is not initialised (pas_block.c:2571-2718, pas_initializer.c:365-372); a file that is a field of a record is stored with STS instead of STI: the address of the field goes to the first word of the record, the file number stays on the stack (:297-317) |
| C85 | libexec_Initialize copies the read-only data to `dstack.b[attr->strSize]`, while rop is the size rounded up: with an odd size of the string stack all read-only data are one byte below their addresses (libexec_run.c:1372-1450); the sizes are added in 16 bits (`stackSize` is a `pasSize_t`): for sizes that together exceed 64K the frame header is written outside of the allocation; when libexec_Initialize fails, libexec_Load frees `st->ispace` with st NULL (libexec_load.c:135-141) |
| C90 | Succ and Pred of long numbers change the high-order word, Odd tests it and leaves the other one, Ord leaves both (pas_stdfunc.c:206-327); Succ(false) is 1, Ord(true) is -1; Abs accepts Integer only, not ShortInteger or LongInteger (:118-141); Chr does not reduce its argument |
| C93 | a string with a field width is rejected: the width is looked for before the string is skipped (pas_procedure.c:1195-1200, 1216-1221); WriteLn(f) is rejected, parameters are required (:1040-1109); Boolean values cannot be written (:1278-1332); Write(, x) is accepted; a field width is taken modulo 256. By reading: arrays of characters are written with the wrong symbol and one word too few; the byte that aligns a string is not initialised (pfwrodata.c:147-176) |
| C94 | every value is read from a line of its own, the rest of the line is lost: Read(x, y) with "1 2" skips the 2 (libexec_sysio.c, fgets for integers and characters); a character read from an empty line is the end of the line, and ReadLn(c) then takes the next line too; ReadLn(f) is rejected; Read(x : y) is accepted (pas_procedure.c:415-665) |
| C95 | the pass for strings looks for LAC directly followed by STRDUP (popt_strconst.c:121), but the compiler generates the size of the allocation between them (pas_expression.c:1004-1015): no STRDUP of a string constant is ever deleted; where the pattern does occur, deleting STRDUP changes the result |
| C96 | insn_disasm.c:605-614 masks the code of FLOAT with fpMASK, so that the bits fpARG1 and fpARG2 are not shown: different operations are listed alike. insn_dislongop.c:210 ignores the two upper bits of the code, and oLONGOP24 (0x7f) has no bit o16, so that DJNEQZ is listed as DNEG and its target as further instructions |
| C98 | Reset of a file that is open ends the program instead of starting the file over (libexec_sysio.c:392-397); the flag `eoln` is set by reading only: after Read(f, c), CloseFile(f), Reset(f) Eoln(f) is true in front of the first character (:384-455); Reset, Reset() and Reset(, 300) are accepted and mean the file OUTPUT (pas_procedure.c:777-823) |
| C99 | SeekEof and SeekEoln remove the first character that is not a blank (no ungetc, libexec_sysio.c:1133-1147, 1183-1197); SeekEoln removes the end of the line as well and is false at the end of the file; Eoln is a flag set by the last read: it is false in front of the end of a line, and no error for a file that is not open (:976-995); Eof of INPUT is false until a read has failed (:921-972); Eof() is accepted (pas_stdfunc.c:369-381) |
| C100 | FilePos(f) and FileSize(f) are always rejected: a token is skipped behind the parenthesis that pas_CheckLParen has skipped already (pas_stdfunc.c:409-414), so that the file is not seen; FilePos(1 f) is accepted instead; binary files, for which the functions are meant, are rejected (:415-421). Seek pushes the file number first, but the machine takes it from the top of the stack (pas_procedure.c:897-916, libexec_sysio.c:1319-1320): the upper half of the position is used as file number, Seek(f, 10) works on INPUT |
| C102 | Addr(v) of a VAR parameter is the address of the parameter, where the address of the variable is stored, not the address of the variable (pas_stdfunc.c:189-191; `@v` is compiled by another function, pas_ComplexPointerFactor); Addr of a procedure or function is rejected with eNOTYET (:163-167) although the comment (:149) allows it; Addr of an array element or a record field is rejected, since the closing parenthesis is expected behind the name (:199-200) |
| C103 | SizeOf is an Integer, the size a uint16_t, vSize and tAllocSize are uint32_t (pas_stdfunc.c:1314, pas_defns.h:139, 184): sizes from 32768 are negative, sizes from 65536 are cut, without an error; SizeOf of a VAR parameter is 2 whatever the type (:1345-1348; the comment there says so, unlike Turbo Pascal and Free Pascal); CONST n = SizeOf(t) calls the function that generates code and does not set g_constantInt (pas_constfunc.c:293-296): n is what the constant before it was, and a PUSH is left in the code |
| C105 | Breakpoints are looked at behind an instruction only (libexec_debug.c:678-722): Run does not stop at a breakpoint at the entry point. Next at a call stops at the address behind it in any activation (:165-179): if the procedure calls itself from the same place, it stops in the inner one |

Further observations made while reading, without a theorem: second and later names of a
CONST, TYPE or VAR group are read by getToken, not getLevelToken, so that they
may not be names of an outer level; `pas_IntAlignRequired` tests the kind of the
symbol against sARRAY, which no type symbol has; pointers to unknown types in a
VAR section stay in `g_forwardRefs`; fields of the same name are accepted;
the offsets of formal parameters assume that the symbols of the parameters follow
each other; the size of a short string is read from g_tknUInt, which may be
stale; a pointer to text and an array of text are treated as file variables;
`assignFlags && (...)` in the assignment to a record (pas_statement.c:830-840)
is a logical instead of a bitwise and; `ReadInteger` and
`ReadChar` at end of file convert what an earlier read left in ioBuffer;
`OpenFile` does not require the number to be in use; a denied `WriteString` does
not free its temporary string; `popt_StackOrderOptimize` never counts its
changes; `poffGetLineNumber` and `poffGetDebugFuncInfo` are off by one at the
end of their sections; pftreloc.c copies into a container it may have reallocated
too small; the elements of an enumeration in a set constant use g_tknUInt, which
the tokenizer does not set for them (pas_token.c:140); pas_CheckShortString
stores g_tknUInt instead of g_constantInt (pas_block.c:888); FilePos and FileSize
skip the name of the file and report an error for the files they are meant for
(pas_stdfunc.c:397-430).

## 5. Trusted base

* The Coq 8.16.1 kernel, with its virtual machine (`vm_compute` is used for
  witnesses, concrete cases and finite sweeps lifted by `forallb_forall`).
* `Print Assumptions` stands under every theorem of `Props*.v`; all of them are
  "Closed under the global context": no axioms.
* No axioms, parameters, admitted lemmas, functors, module types or disabled
  checks in the development.
* The faithfulness of the model to the C text, definition by definition, as
  cited; the simplifications above; the interpretation of each property by the
  specification files.

## 6. Mutation tests

`seeded/LOG.jsonl` records wrong versions of the model (realistic slips in the
modelled functions), the first lemmas that fail and the property theorems that
depend on them.  The edits were made in a copy outside of this repository.
