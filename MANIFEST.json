{
 "claims": [
  {
   "property": "C01",
   "status": "proved",
   "theorems": [
    "C01_roundtrip",
    "C01_roundtrip_unit",
    "C01_sizes"
   ],
   "note": "Writer and reader of insn16/libinsn; units (no END) covered separately."
  },
  {
   "property": "C02",
   "status": "proved",
   "theorems": [
    "C02_length",
    "C02_decode"
   ],
   "note": "Covers every opcode byte; length assigned by the object reader equals the advance of pc, the interpreter decodes the same operands."
  },
  {
   "property": "C03",
   "status": "partial",
   "theorems": [
    "C03_refuted",
    "C03_refuted_exec"
   ],
   "note": "The statement is false of the code: oLONGOP24 is defined as 016|o8|0x37 = 0x7f. Refuted for every long branch and target."
  },
  {
   "property": "C04",
   "status": "proved",
   "theorems": [
    "C04_accepted",
    "C04_reported"
   ],
   "note": "Accepted operands decode to the same number; out-of-range operands are always reported."
  },
  {
   "property": "C05",
   "status": "proved",
   "theorems": [
    "C05_unary",
    "C05_binary"
   ],
   "note": "All unary and binary 16-bit operations against integer relations; UMUL requires the product below 2^31 (int overflow in C otherwise)."
  },
  {
   "property": "C06",
   "status": "partial",
   "theorems": [
    "C06_refuted",
    "C06_refuted_all",
    "C06_partial"
   ],
   "note": "False of the code: no check for zero divisors or large shift counts. Refuted for all such states; the remaining operands are proved safe."
  },
  {
   "property": "C07",
   "status": "proved",
   "theorems": [
    "C07_compare_zero",
    "C07_compare"
   ],
   "note": "Signed, unsigned and compare-with-zero families."
  },
  {
   "property": "C08",
   "status": "proved",
   "theorems": [
    "C08_call_return",
    "C08_call"
   ],
   "note": "Call/return for any callee behaviour preserving the frame header."
  },
  {
   "property": "C09",
   "status": "proved",
   "theorems": [
    "C09_call",
    "C09_address",
    "C09_unique"
   ],
   "note": "Any chain depth; unresolvable level reported as eNESTINGLEVEL."
  },
  {
   "property": "C10",
   "status": "partial",
   "theorems": [
    "C10_refuted",
    "C10_partial"
   ],
   "note": "False for negative offset with offset+index >= 0 (LDSX adds the index before choosing the frame side, STSX after). Proved otherwise."
  },
  {
   "property": "C11",
   "status": "proved",
   "theorems": [
    "C11_store",
    "C11_load"
   ],
   "note": "All simple, indexed and indirect stores; loads of the addressed element."
  },
  {
   "property": "C12",
   "status": "proved",
   "theorems": [
    "C12_load",
    "C12_store",
    "C12_copy"
   ],
   "note": "Multiple loads and stores of any size incl. odd ones, and their composition as a block copy. Requires even addresses, size below 65535 and no overlap with the stack area in use."
  },
  {
   "property": "C13",
   "status": "partial",
   "theorems": [
    "C13_refuted",
    "C13_partial"
   ],
   "note": "False: the machine does not check addresses. Refuted by a program; only the pc check is proved."
  },
  {
   "property": "C14",
   "status": "partial",
   "theorems": [
    "C14_unary_partial",
    "C14_binary_partial",
    "C14_shift",
    "C14_extend",
    "C14_truncate",
    "C14_overflow_refuted"
   ],
   "note": "Signed operations are proved whenever the result is representable; overflow is undefined behaviour in C (int32_t arithmetic), refuted for every overflowing addition."
  },
  {
   "property": "C15",
   "status": "partial",
   "theorems": [
    "C15_zero",
    "C15_equal_partial",
    "C15_refuted",
    "C15_reversed",
    "C15_dult"
   ],
   "note": "Equality, inequality and tests against zero proved. DLT, DGTE, DGT, DLTE, DUGTE, DUGT, DULTE compare in the opposite order (proved for all states), DULT tests the first operand against zero."
  },
  {
   "property": "C16",
   "status": "partial",
   "theorems": [
    "C16_dup_partial",
    "C16_refuted"
   ],
   "note": "DDUP proved; DXCHG uses the wrong offset and is refuted."
  },
  {
   "property": "C17",
   "status": "proved",
   "theorems": [
    "C17_algebra",
    "C17_relations",
    "C17_empty"
   ],
   "note": "All set operators on arbitrary sets and machine states."
  },
  {
   "property": "C18",
   "status": "partial",
   "theorems": [
    "C18_partial",
    "C18_refuted"
   ],
   "note": "False for member number 64 (check is > instead of >=): the answer is then the parity of the base value. Proved for all other 16-bit numbers."
  },
  {
   "property": "C19",
   "status": "partial",
   "theorems": [
    "C19_include_partial",
    "C19_exclude_partial",
    "C19_refuted"
   ],
   "note": "In-range elements proved; out-of-range elements are not reported and set a bit outside of the set (universally)."
  },
  {
   "property": "C20",
   "status": "proved",
   "theorems": [
    "C20_singleton",
    "C20_card"
   ],
   "note": "Singleton incl. error case; cardinality against any duplicate-free enumeration of the members."
  },
  {
   "property": "C21",
   "status": "partial",
   "theorems": [
    "C21_partial",
    "C21_refuted",
    "C21_wrong_refuted"
   ],
   "note": "False: universally undefined behaviour for a<16, 16<=b<31, a+b>31, and a wrong set for 16<=a<32<=b<48. Proved for the remaining shapes (subrange_ok) and for the error cases."
  },
  {
   "property": "C22",
   "status": "partial",
   "theorems": [
    "C22_lifo_partial",
    "C22_new_partial",
    "C22_dispose_partial",
    "C22_refuted",
    "C22_large_refuted",
    "C22_undefined_refuted"
   ],
   "note": "Proved for programs that dispose of the most recent block first (any number of calls, any stores into blocks or outside of the heap), requests up to 65520 bytes, base a multiple of 16, heap up to 32783 bytes; then New/Dispose are also free of undefined behaviour and do not touch other blocks. In general it is false of the code: overlapping blocks after new a, new b, dispose a, new c, dispose b, new d; a request of 65530 bytes is granted by wrap-around; undefined behaviour."
  },
  {
   "property": "C23",
   "status": "partial",
   "theorems": [
    "C23_lifo_partial",
    "C23_refuted"
   ],
   "note": "Proved for programs that dispose of blocks in reverse order of allocation. False in general: new a, new b, dispose a, dispose b loses memory (offset 0 is also the list terminator)."
  },
  {
   "property": "C24",
   "status": "partial",
   "theorems": [
    "C24_within_partial",
    "C24_block_partial",
    "C24_within_refuted",
    "C24_block_refuted"
   ],
   "note": "Writes: proved if the base is at most 8 bytes below a multiple of 16; otherwise the terminus may be written beyond the end of the data stack (refuted). Single free block: proved for aligned bases and up to 32783 bytes; larger heaps have their size truncated to 15 bits (refuted)."
  },
  {
   "property": "C25",
   "status": "partial",
   "theorems": [
    "C25_outside",
    "C25_twice_partial",
    "C25_twice_refuted"
   ],
   "note": "Addresses outside of the heap: proved for every state. Second disposal: proved for last-in-first-out programs without a successful New in between; false if the old header is inside a new block."
  },
  {
   "property": "C26",
   "status": "partial",
   "theorems": [
    "C26_delete_partial",
    "C26_delete_zero_refuted",
    "C26_delete_beyond_refuted"
   ],
   "note": "Proved for positions 1..length+1, every count. Refuted: position 0 makes the length 65535, a position behind the end makes the string longer."
  },
  {
   "property": "C27",
   "status": "partial",
   "theorems": [
    "C27_insert_partial",
    "C27_insert_zero_refuted",
    "C27_insert_beyond_refuted"
   ],
   "note": "Proved for positions 1..length+1 and non-temporary sources. Refuted: positions 0 and > length+2 insert nothing but increase the length."
  },
  {
   "property": "C28",
   "status": "partial",
   "theorems": [
    "C28_copy_partial",
    "C28_copy_empty_refuted"
   ],
   "note": "Proved for heaps used last-in-first-out, source anywhere outside of the free part of the heap; the result is the substring in a new temporary string or eNOMEMORY. Refuted: the empty string constant (allocation 0) always gives eNOMEMORY."
  },
  {
   "property": "C29",
   "status": "partial",
   "theorems": [
    "C29_find_partial",
    "C29_find_beyond_refuted",
    "C29_find_nul_refuted"
   ],
   "note": "Proved for strings without NUL, start positions 1..length+1 and room for the scratch copies. Refuted: start positions behind the end find the scratch copy of the substring; characters behind NUL are not found."
  },
  {
   "property": "C30",
   "status": "proved",
   "theorems": [
    "C30_compare",
    "C30_compare_defined",
    "C30_order_total",
    "C30_order_strict"
   ],
   "note": "Result has the sign of the lexicographic order for all strings including temporary ones; order laws proved."
  },
  {
   "property": "C31",
   "status": "partial",
   "theorems": [
    "C31_assign_partial",
    "C31_assign_temporary_partial",
    "C31_assign_self_partial",
    "C31_assign_large_refuted"
   ],
   "note": "Proved for capacities up to 4095, all four instructions, source plain or most recent temporary, and self assignment. Refuted: capacity 5000 is treated as 904."
  },
  {
   "property": "C32",
   "status": "partial",
   "theorems": [
    "C32_concat_partial",
    "C32_concat_char_partial",
    "C32_concat_refuted",
    "C32_concat_char_refuted"
   ],
   "note": "Proved: all appended if it fits, nothing otherwise; bytes outside unchanged (STRCATC: non-temporary destination). Refuted: the part that fits is not appended; STRCATC on a full temporary string writes behind the buffer."
  },
  {
   "property": "C33",
   "status": "partial",
   "theorems": [
    "C33_array_partial",
    "C33_array_refuted"
   ],
   "note": "Proved for strings not longer than the array. Refuted for longer strings."
  },
  {
   "property": "C34",
   "status": "partial",
   "theorems": [
    "C34_buffers_partial",
    "C34_constants_refuted",
    "C34_max_refuted"
   ],
   "note": "Proved: buffers in use are disjoint and below the Pascal stack, for all allocation histories with procedure entry and exit. Refuted: a buffer may include constants; a size of 65535 reserves nothing."
  },
  {
   "property": "C35",
   "status": "partial",
   "theorems": [
    "C35_unary_pass_partial",
    "C35_folding_refuted"
   ],
   "note": "popt_UnaryOptimize preserves the meaning of the code in the window for every table without the listed exceptions; each class of exceptions is shown to be miscompiled or to be undefined. Binary folding is covered by C36_binary_pass_partial."
  },
  {
   "property": "C36",
   "status": "partial",
   "theorems": [
    "C36_binary_pass_partial",
    "C36_reduction_refuted"
   ],
   "note": "popt_BinaryOptimize (folding and reduction with three entries), again up to listed exceptions, each shown to be wrong; reductions with two entries are covered by C35_unary_pass_partial."
  },
  {
   "property": "C37",
   "status": "partial",
   "theorems": [
    "C37_branch_pass_partial",
    "C37_branch_refuted"
   ],
   "note": "popt_BranchOptimize is sound except for NOT and NEG before a conditional jump, which are miscompiled for non-Boolean operands and for -32768."
  },
  {
   "property": "C38",
   "status": "partial",
   "theorems": [
    "C38_stack_pass_partial",
    "C38_load_pass_partial",
    "C38_store_pass_partial",
    "C38_memory_refuted"
   ],
   "note": "StackOrder, Load and Store passes are sound up to listed exceptions (each shown wrong); oLDXM and oLDSXM are not covered."
  },
  {
   "property": "C39",
   "status": "partial",
   "theorems": [
    "C39_long_unary_pass_partial",
    "C39_long_binary_pass_partial",
    "C39_long_refuted"
   ],
   "note": "Long passes are sound up to listed exceptions, each shown to be miscompiled or undefined; false as stated (width of the comparison results, reversed comparisons, division by zero, INT_MIN)."
  },
  {
   "property": "C40",
   "status": "partial",
   "theorems": [
    "C40_terminates_refuted"
   ],
   "note": "Refuted: two constants before oUDIV make popt_BinaryOptimize loop for ever, for every bound on the number of iterations."
  },
  {
   "property": "C41",
   "status": "partial",
   "theorems": [
    "C41_resolution_partial",
    "C41_landing_partial",
    "C41_label_unique",
    "C41_succeeds",
    "C41_symbols",
    "C41_resolution_refuted"
   ],
   "note": "Proved for all programs without unsigned branches (JULT, JUGTE, JUGT, JULTE) and below 64 KB: resolved code, landing addresses, symbols, entry, success condition. Refuted in general: pass3 leaves unsigned branches with the label number as target."
  },
  {
   "property": "C42",
   "status": "partial",
   "theorems": [
    "C42_code_partial",
    "C42_landing_partial",
    "C42_entry",
    "C42_refuted"
   ],
   "note": "Proved end to end on link: every instruction not patched by a relocation is fetched at module base + offset in moved form; branches land on the instruction they led to; entry point. Missing: the unsigned branches JULT/JUGTE/JUGT/JULTE, which insn_Relocate does not move (C42_refuted)."
  },
  {
   "property": "C43",
   "status": "proved",
   "theorems": [
    "C43_data"
   ],
   "note": "Proved."
  },
  {
   "property": "C44",
   "status": "proved",
   "theorems": [
    "C44_succeeds",
    "C44_table",
    "C44_unique",
    "C44_order_verdict",
    "C44_order_table"
   ],
   "note": "Proved for well-formed modules (relocations fit the code, values fit 16 bits, at most 2^24 symbols, every module has a file name): link succeeds iff linkable; table = definitions; independent of symbol order."
  },
  {
   "property": "C45",
   "status": "proved",
   "theorems": [
    "C45_calls",
    "C45_frame"
   ],
   "note": "Proved: relocated operand = address of the definition, rest of the instruction unchanged; byte-level frame for arbitrary relocation lists."
  },
  {
   "property": "C46",
   "status": "partial",
   "theorems": [
    "C46_round_trip",
    "C46_little_endian_partial",
    "C46_files_refuted",
    "C46_debug_refuted"
   ],
   "note": "Round trip of any container on a big-endian host; on a little-endian host (partial) with at most one file name and no debug records. Refuted on little-endian hosts: two file names make the reader swap outside its buffer; a debug record with a parameter cannot be written."
  },
  {
   "property": "C47",
   "status": "partial",
   "theorems": [
    "C47_fields",
    "C47_tables",
    "C47_portable_partial",
    "C47_files_refuted",
    "C47_debug_refuted"
   ],
   "note": "Header fields and the symbol, relocation and line tables are big-endian in the file whatever the host; whole-file portability with at most one file name and no debug records (partial). Refuted: the file table swap indexes a 32-bit array with a byte index; debug records are bounded by the size of the relocation section."
  },
  {
   "property": "C48",
   "status": "proved",
   "theorems": [
    "C48_retrieved",
    "C48_shared"
   ],
   "note": "For every history of additions: retrieval now and after any later additions, equal indices exactly for equal strings, table only grows."
  },
  {
   "property": "C49",
   "status": "partial",
   "theorems": [
    "C49_lookup_partial",
    "C49_last_partial",
    "C49_refuted"
   ],
   "note": "For every ascending table and every history of lookups the lookup is right below the last entry (partial), and otherwise off by at most one entry. Refuted: the last entry is missed."
  },
  {
   "property": "C50",
   "status": "proved",
   "theorems": [
    "C50_defined",
    "C50_unknown"
   ],
   "note": "Label tables: first match search over append-only tables. Releasing the tables (which leaves dangling pointers) ends the history."
  },
  {
   "property": "C51",
   "status": "partial",
   "theorems": [
    "C51_round_trip_partial",
    "C51_value",
    "C51_saturation_partial",
    "C51_saturation_refuted",
    "C51_minimum_refuted"
   ],
   "note": "Proved: integers -32767..32767 survive Write and Read (field width up to 254); every numeral in range is read as its value; negative overflow is read as -32767. Refuted: positive overflow is read as -32768 (the limits are exchanged); -32768 is read back as -32767."
  },
  {
   "property": "C52",
   "status": "partial",
   "theorems": [
    "C52_allocate",
    "C52_free",
    "C52_standard_refuted"
   ],
   "note": "Proved for all histories of system I/O operations (READ_REAL, WRITE_REAL, FILEPOS, FILESIZE, SEEK and directory operations not modelled). Refuted: standard input can be freed and its number is then handed out."
  },
  {
   "property": "C53",
   "status": "partial",
   "theorems": [
    "C53_read",
    "C53_write",
    "C53_open_partial",
    "C53_open_record_refuted",
    "C53_write_failure_refuted"
   ],
   "note": "Proved for all histories: read and write access, opening without record size. Refuted: failure of RESETR/REWRITER is overwritten by the result of RecordSize; a failing WRITE_STRING is not reported."
  },
  {
   "property": "C54",
   "status": "partial",
   "theorems": [
    "C54_string_partial",
    "C54_char_partial",
    "C54_reported",
    "C54_next_line",
    "C54_empty_line_refuted"
   ],
   "note": "Proved for non-empty lines that fit; Eoln and ReadLn afterwards. Refuted for the empty line: newline becomes data, no end of line, and ReadLn skips the next line."
  },
  {
   "property": "C55",
   "status": "proved",
   "theorems": [
    "C55_relocations",
    "C55_lines"
   ],
   "note": "Relocations move with their instruction, calls of external routines get relocations, line records carry the address of the next instruction."
  },
  {
   "property": "C56",
   "status": "partial",
   "theorems": [
    "C56_lines",
    "C56_no_files_refuted"
   ],
   "note": "Proved for modules with at least one file name; a module without file names leaves outOffset uninitialised (C56_no_files_refuted)."
  },
  {
   "property": "C57",
   "status": "partial",
   "theorems": [
    "C57_decimal_partial",
    "C57_hex_partial",
    "C57_large_refuted",
    "C57_dollar_refuted",
    "C57_binary_refuted",
    "C57_percent_refuted"
   ],
   "note": "Proved for decimal literals below 2^32 and for hexadecimal literals written with %. Refuted: larger values are undefined and unreported, $ is not recognised, % is never binary, % without digits repeats the previous value."
  },
  {
   "property": "C58",
   "status": "partial",
   "theorems": [
    "C58_string",
    "C58_char_partial",
    "C58_open",
    "C58_high_refuted"
   ],
   "note": "Strings and unclosed strings proved in full (up to 65536 characters). Character literals proved below 128, refuted from 128 on (sign extension)."
  },
  {
   "property": "C59",
   "status": "partial",
   "theorems": [
    "C59_layout",
    "C59_line_partial",
    "C59_start",
    "C59_next",
    "C59_long_refuted"
   ],
   "note": "Blanks, { }, (* *), /* */ proved in full; // proved for lines of at most 254 characters, refuted for longer ones."
  },
  {
   "property": "C60",
   "status": "partial",
   "theorems": [
    "C60_ends_partial",
    "C60_open_refuted",
    "C60_end_refuted"
   ],
   "note": "Proved for texts without comments. Refuted: an open comment never ends; behind the end of the file the last line is delivered for ever."
  },
  {
   "property": "C61",
   "status": "proved",
   "theorems": [
    "C61_longest"
   ],
   "note": "Proved for all symbols; the exclusions are the comment openers and '.' in front of a digit."
  },
  {
   "property": "C62",
   "status": "proved",
   "theorems": [
    "C62_reserved",
    "C62_word_symbols",
    "C62_distinct"
   ],
   "note": "Proved for all words, direct and by alternative name."
  },
  {
   "property": "C63",
   "status": "partial",
   "theorems": [
    "C63_lookup_partial",
    "C63_level",
    "C63_alias_refuted"
   ],
   "note": "Proved for all names that are not alternative names; getLevelToken proved. Refuted: a declared name such as Text is replaced before the look-up and is not found."
  },
  {
   "property": "C64",
   "status": "proved",
   "theorems": [
    "C64_accepted",
    "C64_stops"
   ],
   "note": "Proved for all token sequences over the modelled token kinds."
  },
  {
   "property": "C65",
   "status": "partial",
   "theorems": [
    "C65_value_partial",
    "C65_longword_refuted",
    "C65_long_order_refuted",
    "C65_char_order_refuted",
    "C65_word_shift_refuted",
    "C65_word_equal_refuted",
    "C65_cast_refuted",
    "C65_cast_boolean_refuted"
   ],
   "note": "Proved for all well-typed expressions of the specification. Refuted: LongWord addition beyond 2^31, ordered comparison of long, character and Boolean operands, Word with integer constants (shift, comparison), casts of constants above 32767 and of truth values."
  },
  {
   "property": "C66",
   "status": "partial",
   "theorems": [
    "C66_typed_partial",
    "C66_product_refuted",
    "C66_product_long_refuted"
   ],
   "note": "Proved: what is accepted is typed by the rules the compiler does enforce (elax). Refuted: the operand types of multiplication, DIV, MOD and AND are not compared; a long factor leaves a word on the stack."
  },
  {
   "property": "C67",
   "status": "proved",
   "theorems": [
    "C67_ends",
    "C67_same"
   ],
   "note": "Proved: 4*tokens+4 levels suffice and the result does not depend on the fuel."
  },
  {
   "property": "C68",
   "status": "partial",
   "theorems": [
    "C68_meaning_partial",
    "C68_repeat_continue_refuted",
    "C68_for_limit_refuted",
    "C68_for_final_refuted",
    "C68_for_short_refuted",
    "C68_for_long_refuted",
    "C68_for_undefined_refuted",
    "C68_case_boolean_refuted",
    "C68_case_negative_refuted",
    "C68_case_long_refuted",
    "C68_case_type_refuted"
   ],
   "note": "Proved for all statements of the specification over simple variables. Refuted: Continue in REPEAT skips the test; FOR up to the largest integer does not end; the final value of FOR is evaluated after the assignment; FOR variables of 8 or 32 bits; FOR without TO (undefined behaviour); CASE with True, negative constants, long selectors, constants of another type."
  },
  {
   "property": "C69",
   "status": "partial",
   "theorems": [
    "C69_labels",
    "C69_determinate",
    "C69_wrap_refuted"
   ],
   "note": "Proved as long as the label counter does not exceed 65535; refuted beyond it."
  },
  {
   "property": "C70",
   "status": "proved",
   "theorems": [
    "C70_ends",
    "C70_fuel",
    "C70_stops"
   ],
   "note": "Proved: 4*tokens+5 levels suffice and the result does not depend on the fuel."
  },
  {
   "property": "C71",
   "status": "partial",
   "theorems": [
    "C71_accepts_partial",
    "C71_real_refuted"
   ],
   "note": "Proved for token sequences without real and scalar constants. Refuted otherwise: a real number is accepted as a case constant. That the constants of CASE are of the type of the selector is not checked (C68_case_type_refuted)."
  },
  {
   "property": "C72",
   "status": "partial",
   "theorems": [
    "C72_value_partial",
    "C72_or_refuted",
    "C72_relation_refuted",
    "C72_odd_refuted",
    "C72_ord_refuted",
    "C72_succ_refuted"
   ],
   "note": "Proved for the expressions described by cgood. Refuted for Or of integers (subtracts), relations (always rejected), Odd (rejected), Ord(true) (-1) and Succ(false) (1, which is not true)."
  },
  {
   "property": "C73",
   "status": "partial",
   "theorems": [
    "C73_ranges",
    "C73_difference_refuted",
    "C73_sum_refuted",
    "C73_intersection_refuted",
    "C73_overwrite_refuted",
    "C73_outside_refuted"
   ],
   "note": "Ranges on their own: exactly those described by good_range are right. Refuted: differences (reversed), sums of three sets, intersections (rejected), a range behind another element in the same words, elements beyond 63 and true (outside of the array)."
  },
  {
   "property": "C74",
   "status": "partial",
   "theorems": [
    "C74_accepted_partial",
    "C74_odd_refuted",
    "C74_real_refuted",
    "C74_sign_refuted"
   ],
   "note": "Proved for token sequences without Odd, with the type system clax, in which real functions yield integers. Refuted otherwise: Odd(3 4) is accepted and generates code; Sqrt(16) is accepted as the integer 16; a signed character uses an uninitialised variable."
  },
  {
   "property": "C75",
   "status": "proved",
   "theorems": [
    "C75_ends",
    "C75_same"
   ],
   "note": ""
  },
  {
   "property": "C76",
   "status": "partial",
   "theorems": [
    "C76_storage_partial",
    "C76_file_refuted",
    "C76_wrap_refuted"
   ],
   "note": "Refuted for file variables behind an odd number of bytes, and when there are more than 64K of variables (the offset wraps without an error)."
  },
  {
   "property": "C80",
   "status": "partial",
   "theorems": [
    "C80_parameters_partial",
    "C80_wrap_refuted"
   ],
   "note": "Refuted for more than 32K of parameters (the offset wraps)."
  },
  {
   "property": "C77",
   "status": "partial",
   "theorems": [
    "C77_layout_partial",
    "C77_definitions_partial",
    "C77_fields",
    "C77_section_refuted",
    "C77_arrays_refuted"
   ],
   "note": "Proved for records with one name in each section and arrays of simple types and records. Refuted for fields declared together (they share their bytes), for arrays of arrays and of pointers (the size of the innermost type is used) and for arrays of more than 65535 elements."
  },
  {
   "property": "C78",
   "status": "partial",
   "theorems": [
    "C78_declared",
    "C78_offset_partial",
    "C78_inside",
    "C78_apart",
    "C78_load_partial",
    "C78_store_partial",
    "C78_too_many_refuted",
    "C78_too_few_refuted",
    "C78_bounds_refuted"
   ],
   "note": "Proved for index types that are ranges of integers and index expressions without array elements, from the declaration of the type to the effect of the code. Refuted: too many indices lead to the use of a null pointer, too few are not diagnosed, and indices outside the bounds are neither rejected nor checked."
  },
  {
   "property": "C79",
   "status": "partial",
   "theorems": [
    "C79_accepted_partial",
    "C79_complete_partial",
    "C79_set_partial",
    "C79_overflow_refuted",
    "C79_scalar_refuted",
    "C79_outer_refuted",
    "C79_negative_refuted",
    "C79_set_refuted"
   ],
   "note": "Both directions proved for integers up to 32767 (-32768 as a lower bound). Refuted: literals from 32768 to 65535 are accepted and wrap around, a subrange of an enumerated type is rejected unless both bounds are the same constant, negative constants are rejected as bounds, constants of an enumerated type cannot redefine names of an outer level, and sets of more than 32767 elements are accepted."
  },
  {
   "property": "C81",
   "status": "partial",
   "theorems": [
    "C81_types_end_partial",
    "C81_variables_end_partial",
    "C81_parameters_end",
    "C81_base_type",
    "C81_cycle_refuted",
    "C81_null_refuted"
   ],
   "note": "Proved for every loop and recursion over the words; partial because of the loop along the parents. Refuted: recursive pointer and array types make the compiler hang when a variable of the type is declared, and several short declarations make it follow a null pointer."
  },
  {
   "property": "C82",
   "status": "partial",
   "theorems": [
    "C82_procedure_partial",
    "C82_function_partial",
    "C82_reference",
    "C82_offsets",
    "C82_byte_result_refuted"
   ],
   "note": "Proved for parameters and results of simple types; refuted: a function result of one byte leaves the high-order byte of the result word undefined."
  },
  {
   "property": "C83",
   "status": "partial",
   "theorems": [
    "C83_accepted_partial",
    "C83_count",
    "C83_ends",
    "C83_strict_refuted",
    "C83_subrange_refuted",
    "C83_sizes_partial",
    "C83_var_size_refuted"
   ],
   "note": "Proved with the lax typing of expressions (C66). Refuted in the strict sense; a parameter of a range of characters rejects characters; the recorded size of a VAR parameter is that of the variable."
  },
  {
   "property": "C84",
   "status": "partial",
   "theorems": [
    "C84_procedure_partial",
    "C84_function_partial",
    "C84_long_initial_value_refuted",
    "C84_file_field_refuted"
   ],
   "note": "Proved: calls and bodies compiled together, executed by the machine, for bodies whose statements are those of C68, with variables of any surrounding level, value parameters, locals and initial values of words, bytes and numbered files. Missing: calls inside bodies, use of VAR parameters in bodies, other initial values. Refuted: long initial values, file fields of records."
  },
  {
   "property": "C85",
   "status": "partial",
   "theorems": [
    "C85_start_partial",
    "C85_rodata_partial",
    "C85_rodata_odd",
    "C85_rodata_refuted",
    "C85_overflow_refuted"
   ],
   "note": "Proved for all sizes that together stay below 64K and whose heap start C24 accepts; read-only data with an even size of the string stack. Refuted: odd size of the string stack (data one byte below their addresses), sizes whose sum exceeds 16 bits."
  },
  {
   "property": "C86",
   "status": "partial",
   "theorems": [
    "C86_program_partial"
   ],
   "note": "Proved for main blocks whose statements are those of C68, with variables and initial values of words, bytes and numbered files. Missing: calls in the statements, the rest as in C84."
  },
  {
   "property": "C87",
   "status": "partial",
   "theorems": [
    "C87_procedure_partial",
    "C87_program_partial"
   ],
   "note": "Proved for procedures with value parameters whose statements are those of C68 and calls. Missing: functions called in expressions, VAR parameters, calls of standard procedures; the rest as in C84, C86."
  },
  {
   "property": "C88",
   "status": "partial",
   "theorems": [
    "C88_machine_partial"
   ],
   "note": "Proved for programs without the unsigned branches, which pass3 does not resolve (C41_resolution_refuted); the compiler does not emit them."
  },
  {
   "property": "C89",
   "status": "partial",
   "theorems": [
    "C89_program_partial"
   ],
   "note": "Proved for the programs of C87. Missing: functions called in expressions, VAR parameters, standard procedures; the optimizer passes between compiler and label resolution; the output of the compiler is assumed to have operands in range and no label twice."
  },
  {
   "property": "C90",
   "status": "partial",
   "theorems": [
    "C90_function_partial",
    "C90_succ_long_refuted",
    "C90_pred_long_refuted",
    "C90_odd_long_refuted",
    "C90_ord_long_refuted",
    "C90_succ_boolean_refuted",
    "C90_ord_boolean_refuted",
    "C90_abs_refuted",
    "C90_chr_refuted"
   ],
   "note": "Proved for 16-bit numbers and characters. False for long numbers and truth values as arguments of Succ, Pred, Odd and Ord; Abs of short and long integers is rejected (refuted theorems). The functions of real numbers, strings, sets, files and directories are not modelled. All theorems on statements, calls and programs (C68-C89) include these functions in expressions."
  },
  {
   "property": "C91",
   "status": "partial",
   "theorems": [
    "C91_output_partial"
   ],
   "note": "Proved for programs whose declarations are those of C87 (procedures with value parameters, integer, char, Boolean, long variables); units, external procedures and functions called in expressions are not included."
  },
  {
   "property": "C92",
   "status": "partial",
   "theorems": [
    "C92_program_partial"
   ],
   "note": "C89 without its assumptions on the output of the compiler. The optimizer's passes before label resolution are not applied (they are covered separately, C33-C40)."
  },
  {
   "property": "C93",
   "status": "partial",
   "theorems": [
    "C93_write_partial",
    "C93_text",
    "C93_string_width_refuted",
    "C93_line_of_file_refuted",
    "C93_boolean_refuted",
    "C93_comma_refuted",
    "C93_width_refuted"
   ],
   "note": "Numbers of all integer types, characters and string literals to text files. Refuted for strings with field widths, WriteLn of a file alone, Boolean values, a comma without a file, and field widths above 255. Real numbers, string variables, arrays, sets and binary files are not modelled."
  },
  {
   "property": "C94",
   "status": "partial",
   "theorems": [
    "C94_read_partial",
    "C94_values",
    "C94_one_line_refuted",
    "C94_empty_line_refuted",
    "C94_line_of_file_refuted",
    "C94_colon_refuted"
   ],
   "note": "Integer and character variables from text files. Refuted for several values in one line, empty lines, ReadLn of a file alone, and a colon instead of a comma. Real numbers, strings, arrays and binary files are not modelled."
  },
  {
   "property": "C95",
   "status": "partial",
   "theorems": [
    "C95_ends",
    "C95_unchanged_partial",
    "C95_preserves_refuted",
    "C95_constant_refuted"
   ],
   "note": "Termination and the form of the output are proved for all programs with a label. That the deletions preserve behaviour is refuted, and so is that the STRDUP of an assigned string constant is deleted (the pattern never matches what the compiler generates). Relocations are not modelled in this pass."
  },
  {
   "property": "C96",
   "status": "partial",
   "theorems": [
    "C96_listing_partial",
    "C96_address",
    "C96_total",
    "C96_invalid",
    "C96_subcodes",
    "C96_case",
    "C96_float_refuted",
    "C96_long_branch_refuted",
    "C96_long_code_refuted"
   ],
   "note": "Proved for instructions with valid sub-function codes, without line numbers. Refuted: the conversion bits of FLOAT are not shown, long branches are listed as unrelated long operations, and invalid long codes as valid ones."
  },
  {
   "property": "C97",
   "status": "partial",
   "theorems": [
    "C97_optimizer_partial",
    "C97_marks_partial",
    "C97_plain"
   ],
   "note": "Proved, together with termination, for programs without the opcodes that occur in exceptional windows (stack adjustments are allowed if they add up to less than 32768 bytes: C97_plain), and for every program none of the tables of which contains an exceptional window (partial). The exceptions are the miscompilations of C35-C39."
  },
  {
   "property": "C98",
   "status": "partial",
   "theorems": [
    "C98_file_partial",
    "C98_no_file_refuted",
    "C98_again_refuted",
    "C98_eoln_refuted"
   ],
   "note": "Proved for file variables (partial: not for files that are parameters or elements of arrays, and failures are not reported when a record size is given, C53). Refuted: Reset of an open file ends the program, the end-of-line flag survives CloseFile and Reset, Reset without a file is accepted and means OUTPUT."
  },
  {
   "property": "C99",
   "status": "partial",
   "theorems": [
    "C99_query_partial",
    "C99_seek_loses_refuted",
    "C99_seek_line_refuted",
    "C99_seek_end_refuted",
    "C99_eoln_front_refuted",
    "C99_eoln_closed_refuted",
    "C99_eof_input_refuted",
    "C99_empty_eof_refuted"
   ],
   "note": "Proved for file variables (partial: not for parameters and arrays, Eof not for INPUT, SeekEoln only for lines with an end). Refuted: SeekEof and SeekEoln lose the character they find, SeekEoln passes the end of the line and is false at the end of the file, Eoln is false in front of the end of a line and no error for a closed file, Eof of an empty INPUT is false, Eof() is accepted."
  },
  {
   "property": "C100",
   "status": "partial",
   "theorems": [
    "C100_position_refuted",
    "C100_accepted_partial",
    "C100_superfluous_refuted",
    "C100_seek_refuted"
   ],
   "note": "Refuted: every call FilePos(f) and FileSize(f) is rejected, and what is accepted contains a superfluous token (both proved for all calls); the operands of Seek are exchanged, they are right only if the position is 65537 times the file number (proved for all files, expressions and states)."
  },
  {
   "property": "C101",
   "status": "proved",
   "theorems": [
    "C101_end",
    "C101_accepted"
   ],
   "note": "Proved; the statements accepted are described with the types that the compiler of expressions accepts (C66)."
  },
  {
   "property": "C102",
   "status": "partial",
   "theorems": [
    "C102_addr_partial",
    "C102_accepted",
    "C102_reference_refuted",
    "C102_reference_always_refuted",
    "C102_routine_refuted",
    "C102_component_refuted"
   ],
   "note": "Proved for variables that are not parameters passed by reference; what is accepted is exactly the name of a variable. Refuted: for a parameter passed by reference the address of the parameter is given; procedures, functions, elements and fields are rejected."
  },
  {
   "property": "C103",
   "status": "partial",
   "theorems": [
    "C103_size_partial",
    "C103_accepted",
    "C103_large_refuted",
    "C103_reference_refuted",
    "C103_constant_refuted"
   ],
   "note": "Proved for sizes up to 32767 of everything but parameters passed by reference; what is accepted is exactly the name of a variable or type. Refuted: larger sizes, which are cut to 16 bits without an error; parameters passed by reference, of which the size is always 2; constants, which keep the value of the constant before."
  },
  {
   "property": "C104",
   "status": "proved",
   "theorems": [
    "C104_set",
    "C104_clear"
   ],
   "note": "Proved."
  },
  {
   "property": "C105",
   "status": "partial",
   "theorems": [
    "C105_go",
    "C105_go_ends",
    "C105_step",
    "C105_next",
    "C105_run",
    "C105_entry_refuted",
    "C105_next_refuted"
   ],
   "note": "Proved for Go, Run and Step, and for Next with the address behind the call as place to stop; the debugger is a function of an arbitrary machine. Refuted: Run does not stop at a breakpoint at the entry point; Next at a recursive call stops in the procedure called."
  }
 ]
}
