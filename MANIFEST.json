{
 "claims": [
  {
   "property": "C01",
   "status": "proved",
   "theorems": [
    "C01_range",
    "C01_range_after_error",
    "C01_failure_unchanged",
    "C01_width_setter_refuted",
    "C01_setters"
   ],
   "note": "For all sequences of successful statements; C01_width_setter_refuted shows that a raising width assignment (outside the claim) breaks the object."
  },
  {
   "property": "C02",
   "status": "proved",
   "theorems": [
    "C02_arith",
    "C02_text",
    "C02_unsupported",
    "C02_reflected",
    "C02_reflected_any"
   ],
   "note": "Int, binary text and bitstring operands; other texts reduce to the constructor; unsupported operand types are ignored by the code (C02_unsupported)."
  },
  {
   "property": "C03",
   "status": "proved",
   "theorems": [
    "C03_concat",
    "C03_assoc_unit",
    "C03_operands"
   ],
   "note": ""
  },
  {
   "property": "C04",
   "status": "proved",
   "theorems": [
    "C04_slice",
    "C04_simple_slice",
    "C04_index",
    "C04_bad_index"
   ],
   "note": "All slices with any start/stop/step; indices at or above the width read 0 (C04_index)."
  },
  {
   "property": "C05",
   "status": "partial",
   "theorems": [
    "C05_bit",
    "C05_bit_errors",
    "C05_slice",
    "C05_slice_int",
    "C05_slice_int_refuted",
    "C05_slice_errors",
    "C05_errors_rest"
   ],
   "note": "Proved for bits and for bitstring/text slice values; for int slice values the code first cuts the int to 32/64 bits (C05_slice_int exact, C05_slice_int_refuted)."
  },
  {
   "property": "C06",
   "status": "proved",
   "theorems": [
    "C06_signed",
    "C06_signed_short"
   ],
   "note": "Widths 0 and 1 always read 0 (C06_signed_short)."
  },
  {
   "property": "C07",
   "status": "partial",
   "theorems": [
    "C07_observe_refuted",
    "C07_compare_refuted",
    "C07_signed_effect",
    "C07_compare_pure"
   ],
   "note": "False of the code: C07_observe_refuted, C07_compare_refuted. Exact effect: C07_signed_effect; true part: C07_compare_pure."
  },
  {
   "property": "C08",
   "status": "partial",
   "theorems": [
    "C08_order",
    "C08_repr",
    "C08_int",
    "C08_le_negative_refuted",
    "C08_le_negative",
    "C08_text",
    "C08_other",
    "C08_ne_refuted",
    "C08_rest",
    "C08_left_behind"
   ],
   "note": "Proved between bitstrings and for ==, !=, <, >= against ints; <= and > against negative ints are wrong in the code (C08_le_negative_refuted, exact behaviour C08_le_negative); != on foreign types (C08_ne_refuted)."
  },
  {
   "property": "C09",
   "status": "proved",
   "theorems": [
    "C09_round_trip",
    "C09_text_round_trip",
    "C09_characters"
   ],
   "note": ""
  },
  {
   "property": "C10",
   "status": "proved",
   "theorems": [
    "C10_zero_extend",
    "C10_sign_extend"
   ],
   "note": ""
  },
  {
   "property": "C11",
   "status": "proved",
   "theorems": [
    "C11_invert",
    "C11_reverse",
    "C11_reverse_empty_refuted"
   ],
   "note": "Reversal needs width >= 1: the empty bitstring raises (C11_reverse_empty_refuted)."
  },
  {
   "property": "C12",
   "status": "partial",
   "theorems": [
    "C12_int",
    "C12_int_refuted",
    "C12_width",
    "C12_errors",
    "C12_bit_list",
    "C12_bytearray_refuted",
    "C12_bytes_round_trip_refuted",
    "C12_bytes_round_trip_partial",
    "C12_bytearray_py3",
    "C12_bytearray_py2",
    "C12_bytes_round_trip_py2",
    "C12_one_byte",
    "C12_mod_bytearray",
    "C12_bytes",
    "C12_zeros_ones",
    "C12_any_list"
   ],
   "note": "Proved for ints other than 2^32 (C12_int_refuted), 0/1 lists, explicit widths and x.bytes; for bytearrays in full under Python 2.7 (C12_bytearray_py2, C12_bytes_round_trip_py2). In Python 3 a bytearray is a Sequence, so the bytearray branch is dead (C12_bytearray_refuted, C12_bytes_round_trip_refuted; exactly: C12_bytearray_py3; true for one byte: C12_bytes_round_trip_partial, C12_one_byte)."
  },
  {
   "property": "C13",
   "status": "proved",
   "theorems": [
    "C13_queries",
    "C13_extreme_bits"
   ],
   "note": ""
  },
  {
   "property": "C14",
   "status": "proved",
   "theorems": [
    "C14_bitwise",
    "C14_bitwise_int",
    "C14_shift",
    "C14_type_errors",
    "C14_rejects"
   ],
   "note": ""
  },
  {
   "property": "C15",
   "status": "partial",
   "theorems": [
    "C15_base_string",
    "C15_octal_zero_refuted",
    "C15_hex",
    "C15_hex_empty"
   ],
   "note": "Proved for both interpreters except zero in base 8 on Python 2, which prints no digit (C15_octal_zero_refuted)."
  },
  {
   "property": "C16",
   "status": "partial",
   "theorems": [
    "C16_flags",
    "C16_sum_refuted",
    "C16_sum_partial",
    "C16_short",
    "C16_width"
   ],
   "note": "Carry and overflow proved for every width >= 2 (C16_flags). The claim about the returned sum is false in the code (C16_sum_refuted); C16_sum_partial gives the exact value returned. Widths 0 and 1: C16_short."
  },
  {
   "property": "C17",
   "status": "partial",
   "theorems": [
    "C17_negative_rotation",
    "C17_shift_c",
    "C17_shift",
    "C17_rotation",
    "C17_with_carry",
    "C17_without_carry",
    "C17_asr_zero_refuted",
    "C17_rejects",
    "C17_empty",
    "C17_rotate_around"
   ],
   "note": "Every function, amount and type proved, except ASR with amount 0, which raises NameError (C17_asr_zero_refuted). Width 0 is excluded (ROR divides by zero)."
  },
  {
   "property": "C18",
   "status": "proved",
   "theorems": [
    "C18_expand",
    "C18_range"
   ],
   "note": ""
  },
  {
   "property": "C19",
   "status": "proved",
   "theorems": [
    "C19_decode",
    "C19_bad_type"
   ],
   "note": ""
  },
  {
   "property": "C20",
   "status": "proved",
   "theorems": [
    "C20_int",
    "C20_bits",
    "C20_zero"
   ],
   "note": ""
  },
  {
   "property": "C21",
   "status": "partial",
   "theorems": [
    "C21_any_offset",
    "C21_read",
    "C21_short",
    "C21_value_round",
    "C21_bytes_round",
    "C21_list16_units",
    "C21_list16_bytes",
    "C21_list32_units_partial",
    "C21_list32_bytes_partial",
    "C21_list32_py3_refuted"
   ],
   "note": "byteListToU32leList raises on Python 3 (C21_list32_py3_refuted); its inverse property is proved for Python 2. Everything else is proved for both."
  },
  {
   "property": "C22",
   "status": "partial",
   "theorems": [
    "C22_bitmask",
    "C22_bfx_partial",
    "C22_bfx_bit",
    "C22_bfx_refuted",
    "C22_bfi_partial",
    "C22_bfi_refuted",
    "C22_bfx_bfi_partial",
    "C22_wmask",
    "C22_invert32",
    "C22_hamming",
    "C22_float_raises"
   ],
   "note": "bfx/bfi treat lsb = 0 as missing (C22_bfx_refuted, C22_bfi_refuted); proved for lsb > 0 and exactly characterised for lsb = 0."
  },
  {
   "property": "C23",
   "status": "proved",
   "theorems": [
    "C23_parse",
    "C23_reject"
   ],
   "note": "All texts of the documented grammar. Whitespace is required after a name without width and after a constant, as in every built-in format; any rejected text raises ValueError."
  },
  {
   "property": "C24",
   "status": "proved",
   "theorems": [
    "C24_encode16",
    "C24_encode32",
    "C24_only16",
    "C24_only32",
    "C24_size"
   ],
   "note": "For 16-bit and 32-bit formats with pairwise distinct field names."
  },
  {
   "property": "C25",
   "status": "partial",
   "theorems": [
    "C25_tree",
    "C25_total",
    "C25_undefined_refuted",
    "C25_miss"
   ],
   "note": "Proved for every list of decoders the constructor can build. When no decoder matches, the tree raises UndefinedInstructionError or AttributeError (a missing key of the defaultdict of children); the claim that only UndefinedInstructionError is raised is false. C25_miss says exactly which of the two it is."
  },
  {
   "property": "C26",
   "status": "proved",
   "theorems": [
    "C26_build",
    "C26_order"
   ],
   "note": "Termination for all lists of constructed decoders; for the built-in decoders every permutation of the registration order builds and decodes every byte string alike (the one pair of overlapping decoders with equally many fixed bits never both accept a word)."
  },
  {
   "property": "C27",
   "status": "proved",
   "theorems": [
    "C27_frame",
    "C27_word",
    "C27_short"
   ],
   "note": "Framing, word assembled, and exceptions for short data, for any tree."
  },
  {
   "property": "C28",
   "status": "partial",
   "theorems": [
    "C28_errors_partial",
    "C28_row",
    "C28_refuted"
   ],
   "note": "Refuted as stated (AttributeError for words without a decoder, NameError for push.w). Proved: an instruction or UndefinedInstructionError, UnpredictableError, AttributeError, NameError, the last only for push.w; a halfword with a row gives an instruction or UnpredictableError."
  },
  {
   "property": "C29",
   "status": "proved",
   "theorems": [
    "C29_history"
   ],
   "note": "Any tree, any handlers, any history of calls (also mixing Python versions)."
  },
  {
   "property": "C30",
   "status": "proved",
   "theorems": [
    "C30_bytes"
   ],
   "note": "All byte strings, both Python versions."
  },
  {
   "property": "C31",
   "status": "partial",
   "theorems": [
    "C31_builds",
    "C31_decode16",
    "C31_decode32",
    "C31_documented",
    "C31_refuted",
    "C31_undefined16",
    "C31_undefined32"
   ],
   "note": "Decoding is proved equal to an independent encoding table of 122 rows for all words; ten rows deviate from the document (listed) and are refuted. Register restrictions that the manual calls UNPREDICTABLE and the code does not check are not part of the table. C31_undefined16 and C31_undefined32 say exactly which exception a word without a row raises."
  },
  {
   "property": "C32",
   "status": "proved",
   "theorems": [
    "C32_listing",
    "C32_unique",
    "C32_partition",
    "C32_interleaved"
   ],
   "note": "The generator is modelled pull by pull; for every data and address the yielded list is the unique listing: consecutive addresses, bytes concatenating to a prefix, each instruction what decode gives at its offset; interleaved pulls of two generators do not disturb each other."
  },
  {
   "property": "C33",
   "status": "partial",
   "theorems": [
    "C33_end",
    "C33_append",
    "C33_truncated",
    "C33_refuted"
   ],
   "note": "Ends cleanly after the last complete instruction when a truncated 32-bit instruction remains; a++b continues as b at the advanced address; every way of ending is given exactly. Refuted: an odd trailing byte gives AssertionError, and bytes whose key is missing from the decoder tree give AttributeError instead of UndefinedInstructionError; an undefined complete last halfword is silently dropped."
  },
  {
   "property": "C34",
   "status": "proved",
   "theorems": [
    "C34_read",
    "C34_read_after_write",
    "C34_history",
    "C34_bitstring_arguments",
    "C34_sized",
    "C34_rejects",
    "C34_block",
    "C34_block_read"
   ],
   "note": "Any history of writes to any set of regions; little-endian byte order, IndexError past the end of the backing bytes, ValueError for a non-byte in an 8-bit write, block transfers, bitstring and int arguments."
  },
  {
   "property": "C35",
   "status": "proved",
   "theorems": [
    "C35_write",
    "C35_unmapped",
    "C35_located",
    "C35_separate",
    "C35_add_memory"
   ],
   "note": "Exact byte-level frame of every write, unmapped addresses, independence of registers and memory, adding regions."
  },
  {
   "property": "C36",
   "status": "proved",
   "theorems": [
    "C36_names",
    "C36_read_after_write",
    "C36_frame",
    "C36_read",
    "C36_r_interface",
    "C36_accessors",
    "C36_derived",
    "C36_invariant",
    "C36_fresh"
   ],
   "note": "Name table, aliases, read-after-write, frame, interface wrappers and invariants for arbitrary call histories. Registers keep kept(k,v): sp/msp/psp aligned, PRIMASK/FAULTMASK 1 bit, BASEPRI 8 bits."
  },
  {
   "property": "C37",
   "status": "partial",
   "theorems": [
    "C37_sp_mirror",
    "C37_sp_write",
    "C37_process_stack_refuted"
   ],
   "note": "sp = msp and alignment hold after any history (C37_sp_mirror, C37_sp_write). The process-stack half fails: SPSEL is constantly 0, refuted by C37_process_stack_refuted."
  },
  {
   "property": "C38",
   "status": "proved",
   "theorems": [
    "C38_get",
    "C38_set",
    "C38_positions"
   ],
   "note": "Flag read, write, frame, positions."
  },
  {
   "property": "C39",
   "status": "partial",
   "theorems": [
    "C39_read_refuted",
    "C39_exact",
    "C39_write"
   ],
   "note": "cpu.s[k] cannot be read for any k >= 0 (C39_read_refuted, C39_exact); writes are proved visible by name and number (C39_write)."
  },
  {
   "property": "C40",
   "status": "proved",
   "theorems": [
    "C40_execute",
    "C40_history"
   ],
   "note": "Any finite history of executing objects decoded from bytes, including ones that raise, on both Python versions."
  },
  {
   "property": "C41",
   "status": "proved",
   "theorems": [
    "C41_advance",
    "C41_straight_line"
   ],
   "note": "Any decoded instruction that does not name the pc, and any straight-line sequence."
  },
  {
   "property": "C42",
   "status": "partial",
   "theorems": [
    "C42_register_partial",
    "C42_immediate_partial",
    "C42_reverse_partial",
    "C42_nonnegative_partial",
    "C42_refuted"
   ],
   "note": "Right whenever the result is not negative (C42_nonnegative_partial); exact stored result, flags and frame for all operands and states otherwise: the result is inverted when negative, so the claim is false there (C42_refuted)."
  },
  {
   "property": "C43",
   "status": "proved",
   "theorems": [
    "C43_bitop",
    "C43_bic"
   ],
   "note": "and/eor/orr/bic for all registers and contents: destination, N, Z, pc, nothing else."
  },
  {
   "property": "C44",
   "status": "proved",
   "theorems": [
    "C44_shift_imm",
    "C44_shift_reg"
   ],
   "note": "All shift types, immediate and register amounts."
  },
  {
   "property": "C45",
   "status": "partial",
   "theorems": [
    "C45_register",
    "C45_immediate",
    "C45_shifted_refuted"
   ],
   "note": "mov/mvn register and immediate forms exactly; mvn.w with a shifted register raises NameError (C45_shifted_refuted)."
  },
  {
   "property": "C46",
   "status": "partial",
   "theorems": [
    "C46_compare_register_partial",
    "C46_compare_immediate_partial",
    "C46_test",
    "C46_conditions_partial",
    "C46_refuted"
   ],
   "note": "Exact flags after cmp/cmn/tst; which conditions mean what after cmp (C46_conditions_partial); false for negative differences (C46_refuted)."
  },
  {
   "property": "C47",
   "status": "partial",
   "theorems": [
    "C47_not_taken",
    "C47_register",
    "C47_immediate",
    "C47_label_partial",
    "C47_backward_refuted",
    "C47_blx_lr_refuted"
   ],
   "note": "Execution of branch objects exactly, all conditions; decoded forward branches go where they say (C47_label_partial); false for backward branches and blx lr (refuted)."
  },
  {
   "property": "C48",
   "status": "proved",
   "theorems": [
    "C48_load_immediate",
    "C48_load_register",
    "C48_load_literal",
    "C48_store_immediate",
    "C48_store_register",
    "C48_no_write_back"
   ],
   "note": "Loads and stores in full including failing accesses; no encoding asks for write-back (C48_no_write_back)."
  },
  {
   "property": "C49",
   "status": "partial",
   "theorems": [
    "C49_push",
    "C49_pop",
    "C49_push_pop_partial",
    "C49_python3_refuted"
   ],
   "note": "Push and pop exactly on both Python versions, and inverse on Python 2; false on Python 3 (C49_python3_refuted)."
  },
  {
   "property": "C50",
   "status": "partial",
   "theorems": [
    "C50_store_multiple",
    "C50_load_multiple",
    "C50_python3_refuted"
   ],
   "note": "Multiple transfers exactly on both Python versions, with failing reads; on Python 3 the register list is not respected (C50_python3_refuted)."
  },
  {
   "property": "C51",
   "status": "proved",
   "theorems": [
    "C51_extend",
    "C51_byte_reverse"
   ],
   "note": "Extensions and byte reversals."
  },
  {
   "property": "C52",
   "status": "proved",
   "theorems": [
    "C52_multiply"
   ],
   "note": "Product modulo 2**32, N, Z."
  },
  {
   "property": "C53",
   "status": "proved",
   "theorems": [
    "C53_adr"
   ],
   "note": "adr here, literal loads in C48_load_literal."
  },
  {
   "property": "C54",
   "status": "partial",
   "theorems": [
    "C54_hint",
    "C54_cps",
    "C54_mrs_partial",
    "C54_refuted",
    "C54_mrs_other"
   ],
   "note": "cps and hints in full; mrs as far as the code reads the registers; msr writes nothing and mrs is wrong for apsr and ipsr (C54_refuted)."
  },
  {
   "property": "C55",
   "status": "partial",
   "theorems": [
    "C55_partial",
    "C55_refuted"
   ],
   "note": "Every decoded object except rsb.w/cmp.w/cmn.w with an immediate of 2^31 or more, for which it is false (C55_refuted)."
  },
  {
   "property": "C56",
   "status": "proved",
   "theorems": [
    "C56_unchanged",
    "C56_stores"
   ],
   "note": "Loads, stores and literal loads; which cells a failing store may have written."
  },
  {
   "property": "C57",
   "status": "proved",
   "theorems": [
    "C57_column",
    "C57_identifies"
   ],
   "note": "Every decoded instruction can be formatted; the text starts with the byte column and the padded mnemonic; the column determines the bytes."
  },
  {
   "property": "C58",
   "status": "proved",
   "theorems": [
    "C58_runs",
    "C58_readable"
   ],
   "note": "For every width up to 16 and every list: maximal runs, increasing, covering exactly the listed registers; reading the text back gives the list for all 2^16 lists."
  },
  {
   "property": "C59",
   "status": "partial",
   "theorems": [
    "C59_comment",
    "C59_branch_partial",
    "C59_adr_partial",
    "C59_branch_refuted",
    "C59_adr_refuted"
   ],
   "note": "The comment is address + 4 + offset for every decoded label; it is where forward taken branches go and what word-aligned adr with positive offset loads. Refuted for backward branches, for adr at addresses that are not multiples of 4, and for adr with a negative offset. Literal loads print no absolute address."
  },
  {
   "property": "C60",
   "status": "proved",
   "theorems": [
    "C60_repeatable",
    "C60_execution"
   ],
   "note": "Any formatter, any history: the same text on the original and on the already formatted object; formatting changes only operand objects and these do not influence execution."
  },
  {
   "property": "C61",
   "status": "partial",
   "theorems": [
    "C61_names",
    "C61_suffix_partial",
    "C61_refuted"
   ],
   "note": "All 256 SYSm values print their names; suffix right for mask 01 and registers without suffix. Refuted: mask 10 prints _g, mask 11 prints nothing."
  },
  {
   "property": "C62",
   "status": "proved",
   "theorems": [
    "C62_line_partial",
    "C62_number",
    "C62_label",
    "C62_readable"
   ],
   "note": "All integers for immediates and labels, uniqueness of the reading; the whole line of every decoded instruction (C62_line_partial) except msr with mask 10 or 11, whose suffix is wrong (see C61)."
  },
  {
   "property": "C63",
   "status": "partial",
   "theorems": [
    "C63_step_partial",
    "C63_nothing",
    "C63_refuted"
   ],
   "note": "C63_step_partial: if the bytes behind the first instruction (of the four read) decode or are undefined, exactly the first instruction is formatted and executed. C63_nothing: all other cases. C63_refuted: a nop followed by a halfword that cannot be decoded is not executed."
  },
  {
   "property": "C64",
   "status": "partial",
   "theorems": [
    "C64_read",
    "C64_write",
    "C64_roundtrip_partial",
    "C64_limit",
    "C64_refuted"
   ],
   "note": "Exact effect of the read and write commands (C64_read, C64_write, C64_limit). Round trip proved for byte values (C64_roundtrip_partial); false for halfwords and words above 255, which the write commands reject (C64_refuted)."
  },
  {
   "property": "C65",
   "status": "proved",
   "theorems": [
    "C65_create",
    "C65_reset",
    "C65_start"
   ],
   "note": "Creating the simulator from any byte list, the reset, and the start of the program: sp gets the aligned word at 0 and pc the word at 4 exactly when they point to mapped memory; text printed included."
  },
  {
   "property": "C66",
   "status": "partial",
   "theorems": [
    "C66_dump_partial",
    "C66_exact",
    "C66_refuted"
   ],
   "note": "True for bytes and for single lines (C66_dump_partial); exact text for every number of lines (C66_exact); false for further lines of halfwords and words (C66_refuted)."
  },
  {
   "property": "C67",
   "status": "partial",
   "theorems": [
    "C67_lines",
    "C67_blank_partial",
    "C67_refuted",
    "C67_start"
   ],
   "note": "Proved: the loop over lines, repetition for a last line without semicolon, nothing before the first command. Refuted for lines with a semicolon: the repetition passes the whole line to process_command, which does not split it (C67_refuted)."
  },
  {
   "property": "C68",
   "status": "proved",
   "theorems": [
    "C68_integer",
    "C68_spelling",
    "C68_register",
    "C68_deref",
    "C68_argument"
   ],
   "note": "All forms of arguments, with the text that their conversion prints. The Python 2 suffix L of long numbers is not modelled."
  },
  {
   "property": "C69",
   "status": "proved",
   "theorems": [
    "C69_inspect",
    "C69_output",
    "C69_registers",
    "C69_wreg",
    "C69_unknown_refuted"
   ],
   "note": "Includes the exact text of reg and the exact effect of wreg. C69_unknown_refuted records that wreg silently accepts names that are not registers (part of no claim of the property, kept as a finding)."
  },
  {
   "property": "C70",
   "status": "partial",
   "theorems": [
    "C70_commands",
    "C70_help",
    "C70_names_partial",
    "C70_refuted",
    "C70_log"
   ],
   "note": "Proved: every word that is no known name or register is reported, the help text, and that every listed name except stat/status runs its command. Refuted for stat and status, which are listed but unrecognized (C70_refuted)."
  },
  {
   "property": "C71",
   "status": "partial",
   "theorems": [
    "C71_words",
    "C71_sequence",
    "C71_goes_on",
    "C71_messages",
    "C71_sound_partial",
    "C71_wide_refuted",
    "C71_session_partial",
    "C71_main_partial"
   ],
   "note": "Proved: splitting, order, messages, going on, and soundness of the machine through any session from the start on, provided no wreg writes a number of more than 32 bits; refuted without that condition (C71_wide_refuted). $ expressions (Python eval) are not modelled."
  },
  {
   "property": "C72",
   "status": "proved",
   "theorems": [
    "C72_options",
    "C72_disasm"
   ],
   "note": "Exact output in every case. The property's listing fails with IndexError if there is no instruction, and with TypeError outside the memory; both are part of the theorem."
  },
  {
   "property": "C73",
   "status": "proved",
   "theorems": [
    "C73_decode",
    "C73_listing",
    "C73_disasm",
    "C73_execute",
    "C73_moved",
    "C73_text"
   ],
   "note": "Decoding at any tree-level, listings, the generator from any two module histories, execution (depends on class, size, attributes and machine only), and the text of instructions without labels; the text with labels is C59/C62."
  },
  {
   "property": "C74",
   "status": "partial",
   "theorems": [
    "C74_decode_partial",
    "C74_decode_refuted",
    "C74_listing_partial",
    "C74_execute_partial",
    "C74_bytes_partial",
    "C74_execute_refuted"
   ],
   "note": "Proved: decoding agrees up to the mnemonics mov.w/mvn.w (exactly which), listings likewise, and execution agrees for every class except push, pop, ldm and stm. Refuted for those two cases (C74_decode_refuted, C74_execute_refuted): a bitstring is always true under Python 3."
  },
  {
   "property": "C75",
   "status": "proved",
   "theorems": [
    "C75_calls",
    "C75_answers",
    "C75_files",
    "C75_flags",
    "C75_mock_keeps",
    "C75_mock",
    "C75_none",
    "C75_base",
    "C75_blocks"
   ],
   "note": "Any delegate is a record of four functions over any state; recording delegates count the questions; the mock delegate gives exactly the functions all other properties use (C75_mock)."
  },
  {
   "property": "C76",
   "status": "proved",
   "theorems": [
    "C76_built",
    "C76_unbuilt",
    "C76_registered",
    "C76_fields",
    "C76_misfit",
    "C76_misfit32",
    "C76_memsize"
   ],
   "note": "Histories of any length over any handler type; C76_fields and C76_misfit* for the functions of instructions.py."
  },
  {
   "property": "C77",
   "status": "proved",
   "theorems": [
    "C77_defaults",
    "C77_dump",
    "C77_repr",
    "C77_insn_repr"
   ],
   "note": "id() is a parameter of the texts."
  },
  {
   "property": "C78",
   "status": "proved",
   "theorems": [
    "C78_expression",
    "C78_invert",
    "C78_reverse",
    "C78_signed",
    "C78_extend",
    "C78_extend_shares"
   ],
   "note": "A heap of objects read and written attribute by attribute in the order of the code."
  },
  {
   "property": "C79",
   "status": "partial",
   "theorems": [
    "C79_assignment",
    "C79_double",
    "C79_double_refuted",
    "C79_setitem",
    "C79_slice_self",
    "C79_slice_self_refuted"
   ],
   "note": "Holds whenever the operand is another object, and for all operators but % also for x op= x. It does not hold of x %= x (C79_double_refuted; C79_double says exactly what happens: twice the shift) nor of x[a:b] = x (C79_slice_self_refuted; C79_slice_self says which bits survive), so these are excluded in C79_assignment and C79_setitem. An operand that the in-place method does not support gives TypeError or falls back as C79_assignment says."
  },
  {
   "property": "C80",
   "status": "partial",
   "theorems": [
    "C80_distinct",
    "C80_same",
    "C80_same_refuted"
   ],
   "note": "Holds for different objects (C80_distinct). It does not hold of AddWithCarry(x, x, c) with a negative x (C80_same_refuted: -1 + -1 overflows); C80_same says exactly what is returned. The instructions never pass the same object twice."
  },
  {
   "property": "C81",
   "status": "partial",
   "theorems": [
    "C81_python_partial",
    "C81_blank_refuted",
    "C81_others",
    "C81_hex",
    "C81_lines",
    "C81_same_session",
    "C81_stop",
    "C81_status",
    "C81_sound_partial"
   ],
   "note": "eval is an arbitrary function from the text and the machine to a new machine and a value, an exception, SystemExit or KeyboardInterrupt. Not true of a $ after white space, e.g. after a semicolon: the text evaluated then begins with the $ (C81_blank_refuted). The validity of the machine excludes wreg with more than 32 bits (C71_wide_refuted). Ctrl-C while a command runs that is not an expression is not modelled."
  },
  {
   "property": "C82",
   "status": "partial",
   "theorems": [
    "C82_py3_lines",
    "C82_dump_partial",
    "C82_dump_py3",
    "C82_dump_refuted",
    "C82_unbuilt",
    "C82_after_miss",
    "C82_texts"
   ],
   "note": "Holds in Python 2 between build and the first lookup that misses (C82_dump_partial). In Python 3 dump raises AttributeError (iterkeys) unless both trees are leaves (C82_dump_py3; C82_dump_refuted for the library's table); before build it calls itself without end (C82_unbuilt); after a lookup that raised AttributeError it raises AttributeError (C82_after_miss)."
  },
  {
   "property": "C83",
   "status": "proved",
   "theorems": [
    "C83_stepping"
   ],
   "note": "The bytes behind each instruction, of the four that are read, are assumed not to raise (see C63)."
  },
  {
   "property": "C84",
   "status": "proved",
   "theorems": [
    "C84_call_return"
   ],
   "note": "Where the call goes is stated for blx of a register other than lr (C47_blx_lr_refuted) and, for bl, in C47."
  },
  {
   "property": "C85",
   "status": "proved",
   "theorems": [
    "C85_store_load",
    "C85_store_elsewhere",
    "C85_all_transfer"
   ],
   "note": "The bytes stored lie in one region of the memory. Loads of literals (pc-relative) are in C48."
  },
  {
   "property": "C86",
   "status": "partial",
   "theorems": [
    "C86_store_load_partial",
    "C86_py3_refuted"
   ],
   "note": "Python 2 only: on Python 3 every register is taken to be in every list (C86_py3_refuted, C50). The bytes stored lie in one region of the memory."
  },
  {
   "property": "C87",
   "status": "partial",
   "theorems": [
    "C87_push_pop_pc_partial",
    "C87_py3_refuted"
   ],
   "note": "Python 2 only: on Python 3 every register is taken to be in every list (C87_py3_refuted, C49). The bytes stored lie in one region of the memory."
  },
  {
   "property": "C88",
   "status": "partial",
   "theorems": [
    "C88_used16",
    "C88_used32_partial",
    "C88_push_w_refuted"
   ],
   "note": "Holds for all encodings but push.w, which raises NameError for every word (C88_push_w_refuted)."
  },
  {
   "property": "C89",
   "status": "proved",
   "theorems": [
    "C89_register",
    "C89_reglist",
    "C89_simple",
    "C89_current",
    "C89_memory",
    "C89_instruction",
    "C89_turns"
   ],
   "note": "Special registers are in C61, immediates in C62; SYSm is taken to have 8 bits and a mask 2."
  },
  {
   "property": "C90",
   "status": "proved",
   "theorems": [
    "C90_bare"
   ],
   "note": ""
  },
  {
   "property": "C91",
   "status": "proved",
   "theorems": [
    "C91_step",
    "C91_walk"
   ],
   "note": "The walk is assumed to stay below 2^32 - 2^25, so that the pc does not wrap around."
  },
  {
   "property": "C92",
   "status": "proved",
   "theorems": [
    "C92_registers",
    "C92_memory",
    "C92_status"
   ],
   "note": "For any instruction object, decoded or not, and any machine."
  },
  {
   "property": "C93",
   "status": "proved",
   "theorems": [
    "C93_depends"
   ],
   "note": "For machines with the register values in range. The pc counts as used only by the classes that read it; other instructions move it by their size."
  },
  {
   "property": "C94",
   "status": "proved",
   "theorems": [
    "C94_commute"
   ],
   "note": "For instructions that do not name the pc and are not branches; both succeed on the machine they start from."
  },
  {
   "property": "C95",
   "status": "partial",
   "theorems": [
    "C95_line_partial",
    "C95_determined_partial",
    "C95_refuted"
   ],
   "note": "Holds except for adr.w and, on Python 3, movs.w: C95_refuted shows that adr.w prints the same for a label before and after the instruction, and that Python 3 prints movs.w for mov.w. The comment and the byte columns are not looked at."
  },
  {
   "property": "C96",
   "status": "proved",
   "theorems": [
    "C96_extend",
    "C96_byte_reverse",
    "C96_shift",
    "C96_test",
    "C96_branch",
    "C96_load",
    "C96_store"
   ],
   "note": "Objects built by hand (C90); decoded ones have the values of C44-C56. Other unusual values are covered where those claims already quantify over them."
  },
  {
   "property": "C97",
   "status": "proved",
   "theorems": [
    "C97_reorder",
    "C97_fails"
   ],
   "note": "Which exception is raised first may depend on the order, so only that one is raised is claimed."
  },
  {
   "property": "C98",
   "status": "partial",
   "theorems": [
    "C98_arguments",
    "C98_run",
    "C98_stdin",
    "C98_outcome",
    "C98_ends_partial",
    "C98_traceback_refuted",
    "C98_stderr_command",
    "C98_stderr_python",
    "C98_stderr_lines",
    "C98_stderr_same",
    "C98_stderr_run",
    "C98_stderr_ends",
    "C98_stderr_log",
    "C98_stderr_critical"
   ],
   "note": "The part about tracebacks is false: C98_traceback_refuted gives two argument lists that end with one, and C98_ends_partial says that nothing else does. Everything else is proved: C98_arguments and C98_outcome say exactly which argument lists are accepted, show help or version, or are errors. The model follows the argparse of Python 2.7, which does the parsing. C98_stderr_*: the program with a log level and standard error (StderrModel.v); expressions may set the level and write to standard error in any way."
  },
  {
   "property": "C99",
   "status": "proved",
   "theorems": [
    "C99_alone_raises",
    "C99_alone_twice",
    "C99_alone_list",
    "C99_alone_passes",
    "C99_alone_pc_only",
    "C99_alone_goes_on",
    "C99_alone_object",
    "C99_alone_mrs",
    "C99_alone_reverse",
    "C99_mock",
    "C99_alike",
    "C99_refines",
    "C99_calls",
    "C99_script",
    "C99_formed",
    "C99_stop",
    "C99_stop_run"
   ],
   "note": "Proved for every delegate, as a record of four functions on any type of states. C99_script assumes that a special register number has 8 bits and a base register is not negative, which C99_formed shows of everything decoded. C99_alone_*: a CPU model without a delegate (AloneModel.v). C99_stop*: the exception may be any; it comes at a call, so an exception inside the delegate's own code is one that leaves its state as it was."
  }
 ]
}