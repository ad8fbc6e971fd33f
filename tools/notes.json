{
"C01": [
"proved",
"For all sequences of successful statements; C01_width_setter_refuted shows that a raising width assignment (outside the claim) breaks the object."
],
"C02": [
"proved",
"Int, binary text and bitstring operands; other texts reduce to the constructor; unsupported operand types are ignored by the code (C02_unsupported)."
],
"C03": [
"proved",
""
],
"C04": [
"proved",
"All slices with any start/stop/step; indices at or above the width read 0 (C04_index)."
],
"C05": [
"partial",
"Proved for bits and for bitstring/text slice values; for int slice values the code first cuts the int to 32/64 bits (C05_slice_int exact, C05_slice_int_refuted)."
],
"C06": [
"proved",
"Widths 0 and 1 always read 0 (C06_signed_short)."
],
"C07": [
"partial",
"False of the code: C07_observe_refuted, C07_compare_refuted. Exact effect: C07_signed_effect; true part: C07_compare_pure."
],
"C08": [
"partial",
"Proved between bitstrings and for ==, !=, <, >= against ints; <= and > against negative ints are wrong in the code (C08_le_negative_refuted, exact behaviour C08_le_negative); != on foreign types (C08_ne_refuted)."
],
"C09": [
"proved",
""
],
"C10": [
"proved",
""
],
"C11": [
"proved",
"Reversal needs width >= 1: the empty bitstring raises (C11_reverse_empty_refuted)."
],
"C12": [
"partial",
"Proved for ints other than 2^32 (C12_int_refuted), 0/1 lists, explicit widths and x.bytes; for bytearrays in full under Python 2.7 (C12_bytearray_py2, C12_bytes_round_trip_py2). In Python 3 a bytearray is a Sequence, so the bytearray branch is dead (C12_bytearray_refuted, C12_bytes_round_trip_refuted; exactly: C12_bytearray_py3; true for one byte: C12_bytes_round_trip_partial, C12_one_byte)."
],
"C13": [
"proved",
""
],
"C14": [
"proved",
""
],
"C15": [
"partial",
"Proved for both interpreters except zero in base 8 on Python 2, which prints no digit (C15_octal_zero_refuted)."
],
"C16": [
"partial",
"Carry and overflow proved for every width >= 2 (C16_flags). The claim about the returned sum is false in the code (C16_sum_refuted); C16_sum_partial gives the exact value returned. Widths 0 and 1: C16_short."
],
"C17": [
"partial",
"Every function, amount and type proved, except ASR with amount 0, which raises NameError (C17_asr_zero_refuted). Width 0 is excluded (ROR divides by zero)."
],
"C18": [
"proved",
""
],
"C19": [
"proved",
""
],
"C20": [
"proved",
""
],
"C21": [
"partial",
"byteListToU32leList raises on Python 3 (C21_list32_py3_refuted); its inverse property is proved for Python 2. Everything else is proved for both."
],
"C22": [
"partial",
"bfx/bfi treat lsb = 0 as missing (C22_bfx_refuted, C22_bfi_refuted); proved for lsb > 0 and exactly characterised for lsb = 0."
],
"C23": [
"proved",
"All texts of the documented grammar. Whitespace is required after a name without width and after a constant, as in every built-in format; any rejected text raises ValueError."
],
"C24": [
"proved",
"For 16-bit and 32-bit formats with pairwise distinct field names."
],
"C25": [
"partial",
"Proved for every list of decoders the constructor can build. When no decoder matches, the tree raises UndefinedInstructionError or AttributeError (a missing key of the defaultdict of children); the claim that only UndefinedInstructionError is raised is false. C25_miss says exactly which of the two it is."
],
"C26": [
"proved",
"Termination for all lists of constructed decoders; for the built-in decoders every permutation of the registration order builds and decodes every byte string alike (the one pair of overlapping decoders with equally many fixed bits never both accept a word)."
],
"C27": [
"proved",
"Framing, word assembled, and exceptions for short data, for any tree."
],
"C28": [
"partial",
"Refuted as stated (AttributeError for words without a decoder, NameError for push.w). Proved: an instruction or UndefinedInstructionError, UnpredictableError, AttributeError, NameError, the last only for push.w; a halfword with a row gives an instruction or UnpredictableError."
],
"C29": [
"proved",
"Any tree, any handlers, any history of calls (also mixing Python versions)."
],
"C30": [
"proved",
"All byte strings, both Python versions."
],
"C31": [
"partial",
"Decoding is proved equal to an independent encoding table of 122 rows for all words; ten rows deviate from the document (listed) and are refuted. Register restrictions that the manual calls UNPREDICTABLE and the code does not check are not part of the table. C31_undefined16 and C31_undefined32 say exactly which exception a word without a row raises."
],
"C32": [
"proved",
"The generator is modelled pull by pull; for every data and address the yielded list is the unique listing: consecutive addresses, bytes concatenating to a prefix, each instruction what decode gives at its offset; interleaved pulls of two generators do not disturb each other."
],
"C33": [
"partial",
"Ends cleanly after the last complete instruction when a truncated 32-bit instruction remains; a++b continues as b at the advanced address; every way of ending is given exactly. Refuted: an odd trailing byte gives AssertionError, and bytes whose key is missing from the decoder tree give AttributeError instead of UndefinedInstructionError; an undefined complete last halfword is silently dropped."
],
"C34": [
"proved",
"Any history of writes to any set of regions; little-endian byte order, IndexError past the end of the backing bytes, ValueError for a non-byte in an 8-bit write, block transfers, bitstring and int arguments."
],
"C35": [
"proved",
"Exact byte-level frame of every write, unmapped addresses, independence of registers and memory, adding regions."
],
"C36": [
"proved",
"Name table, aliases, read-after-write, frame, interface wrappers and invariants for arbitrary call histories. Registers keep kept(k,v): sp/msp/psp aligned, PRIMASK/FAULTMASK 1 bit, BASEPRI 8 bits."
],
"C37": [
"partial",
"sp = msp and alignment hold after any history (C37_sp_mirror, C37_sp_write). The process-stack half fails: SPSEL is constantly 0, refuted by C37_process_stack_refuted."
],
"C38": [
"proved",
"Flag read, write, frame, positions."
],
"C39": [
"partial",
"cpu.s[k] cannot be read for any k >= 0 (C39_read_refuted, C39_exact); writes are proved visible by name and number (C39_write)."
],
"C40": [
"proved",
"Any finite history of executing objects decoded from bytes, including ones that raise, on both Python versions."
],
"C41": [
"proved",
"Any decoded instruction that does not name the pc, and any straight-line sequence."
],
"C42": [
"partial",
"Right whenever the result is not negative (C42_nonnegative_partial); exact stored result, flags and frame for all operands and states otherwise: the result is inverted when negative, so the claim is false there (C42_refuted)."
],
"C43": [
"proved",
"and/eor/orr/bic for all registers and contents: destination, N, Z, pc, nothing else."
],
"C44": [
"proved",
"All shift types, immediate and register amounts."
],
"C45": [
"partial",
"mov/mvn register and immediate forms exactly; mvn.w with a shifted register raises NameError (C45_shifted_refuted)."
],
"C46": [
"partial",
"Exact flags after cmp/cmn/tst; which conditions mean what after cmp (C46_conditions_partial); false for negative differences (C46_refuted)."
],
"C47": [
"partial",
"Execution of branch objects exactly, all conditions; decoded forward branches go where they say (C47_label_partial); false for backward branches and blx lr (refuted)."
],
"C48": [
"proved",
"Loads and stores in full including failing accesses; no encoding asks for write-back (C48_no_write_back)."
],
"C49": [
"partial",
"Push and pop exactly on both Python versions, and inverse on Python 2; false on Python 3 (C49_python3_refuted)."
],
"C50": [
"partial",
"Multiple transfers exactly on both Python versions, with failing reads; on Python 3 the register list is not respected (C50_python3_refuted)."
],
"C51": [
"proved",
"Extensions and byte reversals."
],
"C52": [
"proved",
"Product modulo 2**32, N, Z."
],
"C53": [
"proved",
"adr here, literal loads in C48_load_literal."
],
"C54": [
"partial",
"cps and hints in full; mrs as far as the code reads the registers; msr writes nothing and mrs is wrong for apsr and ipsr (C54_refuted)."
],
"C55": [
"partial",
"Every decoded object except rsb.w/cmp.w/cmn.w with an immediate of 2^31 or more, for which it is false (C55_refuted)."
],
"C56": [
"proved",
"Loads, stores and literal loads; which cells a failing store may have written."
],
"C57": [
"proved",
"Every decoded instruction can be formatted; the text starts with the byte column and the padded mnemonic; the column determines the bytes."
],
"C58": [
"proved",
"For every width up to 16 and every list: maximal runs, increasing, covering exactly the listed registers; reading the text back gives the list for all 2^16 lists."
],
"C59": [
"partial",
"The comment is address + 4 + offset for every decoded label; it is where forward taken branches go and what word-aligned adr with positive offset loads. Refuted for backward branches, for adr at addresses that are not multiples of 4, and for adr with a negative offset. Literal loads print no absolute address."
],
"C60": [
"proved",
"Any formatter, any history: the same text on the original and on the already formatted object; formatting changes only operand objects and these do not influence execution."
],
"C61": [
"partial",
"All 256 SYSm values print their names; suffix right for mask 01 and registers without suffix. Refuted: mask 10 prints _g, mask 11 prints nothing."
],
"C62": [
"proved",
"All integers for immediates and labels, uniqueness of the reading; the whole line of every decoded instruction (C62_line_partial) except msr with mask 10 or 11, whose suffix is wrong (see C61)."
],
"C63": [
"partial",
"C63_step_partial: if the bytes behind the first instruction (of the four read) decode or are undefined, exactly the first instruction is formatted and executed. C63_nothing: all other cases. C63_refuted: a nop followed by a halfword that cannot be decoded is not executed."
],
"C64": [
"partial",
"Exact effect of the read and write commands (C64_read, C64_write, C64_limit). Round trip proved for byte values (C64_roundtrip_partial); false for halfwords and words above 255, which the write commands reject (C64_refuted)."
],
"C65": [
"proved",
"Creating the simulator from any byte list, the reset, and the start of the program: sp gets the aligned word at 0 and pc the word at 4 exactly when they point to mapped memory; text printed included."
],
"C66": [
"partial",
"True for bytes and for single lines (C66_dump_partial); exact text for every number of lines (C66_exact); false for further lines of halfwords and words (C66_refuted)."
],
"C67": [
"partial",
"Proved: the loop over lines, repetition for a last line without semicolon, nothing before the first command. Refuted for lines with a semicolon: the repetition passes the whole line to process_command, which does not split it (C67_refuted)."
],
"C68": [
"proved",
"All forms of arguments, with the text that their conversion prints. The Python 2 suffix L of long numbers is not modelled."
],
"C69": [
"proved",
"Includes the exact text of reg and the exact effect of wreg. C69_unknown_refuted records that wreg silently accepts names that are not registers (part of no claim of the property, kept as a finding)."
],
"C70": [
"partial",
"Proved: every word that is no known name or register is reported, the help text, and that every listed name except stat/status runs its command. Refuted for stat and status, which are listed but unrecognized (C70_refuted)."
],
"C71": [
"partial",
"Proved: splitting, order, messages, going on, and soundness of the machine through any session from the start on, provided no wreg writes a number of more than 32 bits; refuted without that condition (C71_wide_refuted). $ expressions (Python eval) are not modelled."
],
"C72": [
"proved",
"Exact output in every case. The property's listing fails with IndexError if there is no instruction, and with TypeError outside the memory; both are part of the theorem."
],
"C73": [
"proved",
"Decoding at any tree-level, listings, the generator from any two module histories, execution (depends on class, size, attributes and machine only), and the text of instructions without labels; the text with labels is C59/C62."
],
"C74": [
"partial",
"Proved: decoding agrees up to the mnemonics mov.w/mvn.w (exactly which), listings likewise, and execution agrees for every class except push, pop, ldm and stm. Refuted for those two cases (C74_decode_refuted, C74_execute_refuted): a bitstring is always true under Python 3."
],
"C75": [
"proved",
"Any delegate is a record of four functions over any state; recording delegates count the questions; the mock delegate gives exactly the functions all other properties use (C75_mock)."
],
"C76": [
"proved",
"Histories of any length over any handler type; C76_fields and C76_misfit* for the functions of instructions.py."
],
"C77": [
"proved",
"id() is a parameter of the texts."
],
"C78": [
"proved",
"A heap of objects read and written attribute by attribute in the order of the code."
],
"C79": [
"partial",
"Holds whenever the operand is another object, and for all operators but % also for x op= x. It does not hold of x %= x (C79_double_refuted; C79_double says exactly what happens: twice the shift) nor of x[a:b] = x (C79_slice_self_refuted; C79_slice_self says which bits survive), so these are excluded in C79_assignment and C79_setitem. An operand that the in-place method does not support gives TypeError or falls back as C79_assignment says."
],
"C80": [
"partial",
"Holds for different objects (C80_distinct). It does not hold of AddWithCarry(x, x, c) with a negative x (C80_same_refuted: -1 + -1 overflows); C80_same says exactly what is returned. The instructions never pass the same object twice."
],
"C81": [
"partial",
"eval is an arbitrary function from the text and the machine to a new machine and a value, an exception, SystemExit or KeyboardInterrupt. Not true of a $ after white space, e.g. after a semicolon: the text evaluated then begins with the $ (C81_blank_refuted). The validity of the machine excludes wreg with more than 32 bits (C71_wide_refuted). Ctrl-C while a command runs that is not an expression is not modelled."
],
"C82": [
"partial",
"Holds in Python 2 between build and the first lookup that misses (C82_dump_partial). In Python 3 dump raises AttributeError (iterkeys) unless both trees are leaves (C82_dump_py3; C82_dump_refuted for the library's table); before build it calls itself without end (C82_unbuilt); after a lookup that raised AttributeError it raises AttributeError (C82_after_miss)."
],
"C83": [
"proved",
"The bytes behind each instruction, of the four that are read, are assumed not to raise (see C63)."
],
"C84": [
"proved",
"Where the call goes is stated for blx of a register other than lr (C47_blx_lr_refuted) and, for bl, in C47."
],
"C85": [
"proved",
"The bytes stored lie in one region of the memory. Loads of literals (pc-relative) are in C48."
],
"C86": [
"partial",
"Python 2 only: on Python 3 every register is taken to be in every list (C86_py3_refuted, C50). The bytes stored lie in one region of the memory."
],
"C87": [
"partial",
"Python 2 only: on Python 3 every register is taken to be in every list (C87_py3_refuted, C49). The bytes stored lie in one region of the memory."
],
"C88": [
"partial",
"Holds for all encodings but push.w, which raises NameError for every word (C88_push_w_refuted)."
],
"C89": [
"proved",
"Special registers are in C61, immediates in C62; SYSm is taken to have 8 bits and a mask 2."
],
"C90": [
"proved",
""
],
"C91": [
"proved",
"The walk is assumed to stay below 2^32 - 2^25, so that the pc does not wrap around."
],
"C92": [
"proved",
"For any instruction object, decoded or not, and any machine."
],
"C93": [
"proved",
"For machines with the register values in range. The pc counts as used only by the classes that read it; other instructions move it by their size."
],
"C94": [
"proved",
"For instructions that do not name the pc and are not branches; both succeed on the machine they start from."
],
"C95": [
"partial",
"Holds except for adr.w and, on Python 3, movs.w: C95_refuted shows that adr.w prints the same for a label before and after the instruction, and that Python 3 prints movs.w for mov.w. The comment and the byte columns are not looked at."
],
"C96": [
"proved",
"Objects built by hand (C90); decoded ones have the values of C44-C56. Other unusual values are covered where those claims already quantify over them."
],
"C97": [
"proved",
"Which exception is raised first may depend on the order, so only that one is raised is claimed."
],
"C98": [
"partial",
"The part about tracebacks is false: C98_traceback_refuted gives two argument lists that end with one, and C98_ends_partial says that nothing else does. Everything else is proved: C98_arguments and C98_outcome say exactly which argument lists are accepted, show help or version, or are errors. The model follows the argparse of Python 2.7, which does the parsing. C98_stderr_*: the program with a log level and standard error (StderrModel.v); expressions may set the level and write to standard error in any way."
],
"C99": [
"proved",
"Proved for every delegate, as a record of four functions on any type of states. C99_script assumes that a special register number has 8 bits and a base register is not negative, which C99_formed shows of everything decoded. C99_alone_*: a CPU model without a delegate (AloneModel.v). C99_stop*: the exception may be any; it comes at a call, so an exception inside the delegate's own code is one that leaves its state as it was."
]
}