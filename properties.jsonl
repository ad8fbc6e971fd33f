{"id": "C01", "title": "A bitstring never holds a value outside its width", "statement": "After any sequence of successful operations on a bitstring (construction, += -= *= //= %= <<= >>= &= |= ^=, value/width assignment, bit and slice assignment, invert, reverse, reading signed, comparing), 0 <= b.value < 2**b.width and b.mask == 2**b.width - 1.", "quantifier": "every constructor argument, every finite operation sequence, every operand of every width", "why_tests_cant": "the set of operation histories and widths is infinite", "anchors": ["cmdis/bitstring.py:bitstring"]}
{"id": "C02", "title": "Arithmetic on bitstrings is exact modulo 2**width of the left operand", "statement": "a+b, a-b, a*b and a//b return a bitstring of a's width whose value is the mathematical result reduced modulo 2**a.width (floor division; division by zero raises), and neither operand changes.", "quantifier": "all bitstrings of all widths and all integer, string or bitstring operands", "why_tests_cant": "unbounded widths and values", "anchors": ["cmdis/bitstring.py:__add__,__iadd__,__sub__,__isub__,__mul__,__imul__,__floordiv__,__ifloordiv__"]}
{"id": "C03", "title": "Concatenation lays out the left operand above the right one", "statement": "(a % b).width = a.width + b.width, its low b.width bits are b and the bits above are a; concatenation is associative and the empty bitstring is its unit.", "quantifier": "all bitstrings of all widths", "why_tests_cant": "unbounded widths", "anchors": ["cmdis/bitstring.py:__mod__,__imod__"]}
{"id": "C04", "title": "Slicing follows Python slice semantics on bit positions", "statement": "x[s] for any slice s (any start/stop/step, negative or missing) has one bit per index of range(*s.indices(x.width)), in that order from bit 0 up; in particular x[a:b].value == (x.value >> a) mod 2**(b-a) for 0<=a<=b<=width.  x[i] is bit i, with negative i counted from the top.", "quantifier": "all bitstrings, all slices, all indices", "why_tests_cant": "infinite family of slices and widths", "anchors": ["cmdis/bitstring.py:__getitem__,get_bit"]}
{"id": "C05", "title": "Assigning a bit or slice changes exactly the addressed bits", "statement": "After x[i]=v or x[a:b]=v the addressed bits read back as the low bits of v, every other bit and the width are unchanged; out of range or ill-typed assignments raise and leave x unchanged.", "quantifier": "all bitstrings, indices, slices and values", "why_tests_cant": "frame property over all positions", "anchors": ["cmdis/bitstring.py:__setitem__"]}
{"id": "C06", "title": "signed is the two's complement reading", "statement": "For width >= 2, x.signed is the unique integer in [-2**(w-1), 2**(w-1)) congruent to x.value modulo 2**w.", "quantifier": "all bitstrings", "why_tests_cant": "unbounded widths", "anchors": ["cmdis/bitstring.py:signed"]}
{"id": "C07", "title": "Observing a bitstring does not modify it", "statement": "Reading x.signed, evaluating ~x, comparing x with any value, formatting or iterating x leaves x.value and x.width unchanged.", "quantifier": "all bitstrings and all comparison operands", "why_tests_cant": "a tester samples few negative values and rarely re-reads the operand", "anchors": ["cmdis/bitstring.py:signed,__invert__,__eq__,__lt__,invert"]}
{"id": "C08", "title": "Comparison operators form a consistent total order", "statement": "On bitstrings: == is equality of (width,value), != its negation, < is a strict total order compared by value then width, <=, >, >= are its derived relations; equal bitstrings have equal repr and therefore equal hash. Against ints: non-negative ints compare with the unsigned value and negative ones with the signed value.", "quantifier": "all pairs/triples of bitstrings", "why_tests_cant": "laws over all triples", "anchors": ["cmdis/bitstring.py:__eq__,__ne__,__lt__,__le__,__gt__,__ge__,__hash__"]}
{"id": "C09", "title": "Binary text round-trips", "statement": "bitstring(x.binary_string) == x for every x of width >= 1, and bitstring(s).binary_string == s for every non-empty string s over 0/1; reading x as an iterable lists its bits from bit 0.", "quantifier": "all bitstrings, all 0/1 strings", "why_tests_cant": "unbounded lengths", "anchors": ["cmdis/bitstring.py:__init__,binary_string,__iter__"]}
{"id": "C10", "title": "Sign and zero extension preserve the number", "statement": "x.zero_extend(w) has width w and the same unsigned value, x.sign_extend(w) has width w and the same signed value (for width >= 2); a smaller width raises ValueError.", "quantifier": "all bitstrings and target widths", "why_tests_cant": "unbounded widths", "anchors": ["cmdis/bitstring.py:sign_extend,zero_extend"]}
{"id": "C11", "title": "Inversion and reversal are involutions", "statement": "x.inverted flips every bit and x.reversed mirrors bit i to bit width-1-i; applying either twice gives x back; the in-place variants leave the object equal to the same result.", "quantifier": "all bitstrings", "why_tests_cant": "unbounded widths", "anchors": ["cmdis/bitstring.py:inverted,reversed,invert,reverse"]}
{"id": "C12", "title": "Construction preserves the numeric value", "statement": "bitstring(n) has value n for every 0 <= n < 2**64; bitstring(bits) of a 0/1 list is the big-endian number; bitstring(bytearray) is the little-endian number and bitstring(x.bytes, x.width) == x.", "quantifier": "all integers, lists, byte arrays", "why_tests_cant": "boundary at 2**32 and all byte strings", "anchors": ["cmdis/bitstring.py:__init__,bytes"]}
{"id": "C13", "title": "Bit queries agree with the bits", "statement": "bit_count is the number of set bits, lowest_set_bit / highest_set_bit the extreme set positions (width / -1 when none), is_zero / is_ones and their _bit forms hold exactly when all bits are clear / set, get_bit_value(i) is bit i.", "quantifier": "all bitstrings", "why_tests_cant": "unbounded widths", "anchors": ["cmdis/bitstring.py:bit_count,lowest_set_bit,highest_set_bit,is_zero,is_ones,is_zero_bit,is_ones_bit,get_bit_value"]}
{"id": "C14", "title": "Bitwise operators and shifts act bit by bit", "statement": "&, |, ^ act on each bit position (result width: left operand for &, the wider for | and ^), << and >> shift within the width and drop bits outside, negative shifts raise.", "quantifier": "all bitstrings and operands", "why_tests_cant": "unbounded widths", "anchors": ["cmdis/bitstring.py:__and__,__or__,__xor__,__lshift__,__rshift__"]}
{"id": "C15", "title": "Numeric text in bases 2, 8, 10, 16 denotes the value", "statement": "base_string(b) is width'<letter><digits> with digits denoting the value in base b (on Python 2 and 3), other bases raise ValueError.", "quantifier": "all bitstrings, all bases", "why_tests_cant": "unbounded values", "anchors": ["cmdis/bitstring.py:base_string,__repr__,__hex__"]}
{"id": "C16", "title": "AddWithCarry computes sum, carry and overflow", "statement": "AddWithCarry(x,y,c) returns (x+y+c) mod 2**N, carry set iff the unsigned sum does not fit N bits, overflow set iff the signed sum does not fit N bits.", "quantifier": "all equal-width bitstrings x,y and carries", "why_tests_cant": "2**65 cases at width 32 and all widths", "anchors": ["cmdis/helpers.py:AddWithCarry"]}
{"id": "C17", "title": "Shift and rotate helpers implement the architecture", "statement": "LSL_C, LSR_C, ASR_C, ROR_C, RRX_C (and the variants without carry, and Shift_C/Shift dispatching on them) return the shifted value and the last bit shifted out for every shift amount >= 1, including amounts at or above the width; a zero amount returns the operand and the incoming carry.", "quantifier": "all bitstrings, all shift amounts, all carries", "why_tests_cant": "unbounded shift amounts and widths", "anchors": ["cmdis/helpers.py:LSL_C,LSR_C,ASR_C,ROR_C,RRX_C,Shift_C,Shift,LSL,LSR,ASR,ROR,RRX"]}
{"id": "C18", "title": "Thumb modified immediates expand as specified", "statement": "ThumbExpandImm(imm12) gives the architectural 32-bit constant for each of the four replication forms and the rotated form; the carry result is bit 31 of a rotated constant and the incoming carry otherwise.", "quantifier": "all 12-bit immediates and carries", "why_tests_cant": "the tests leave ThumbExpandImm untested", "anchors": ["cmdis/helpers.py:ThumbExpandImm,ThumbExpandImm_C"]}
{"id": "C19", "title": "Immediate shift decoding", "statement": "DecodeImmShift(type, imm5) yields LSL n, LSR n|32, ASR n|32, ROR n or RRX 1 as specified, and never an amount outside 0..32.", "quantifier": "all 2-bit types and 5-bit amounts", "why_tests_cant": "all pairs", "anchors": ["cmdis/helpers.py:DecodeImmShift"]}
{"id": "C20", "title": "Align rounds down to a power of two", "statement": "Align(v, 2**k) is the largest multiple of 2**k not above v, for ints and (within the width) for bitstrings.", "quantifier": "all integers/bitstrings, all k", "why_tests_cant": "unbounded", "anchors": ["cmdis/helpers.py:Align"]}
{"id": "C21", "title": "Little-endian byte conversions round-trip", "statement": "bytes_to_le16/32 invert le16/32_to_bytes on in-range values and conversely on byte lists; the list converters u16/u32leListToByteList and byteListToU16/U32leList are mutually inverse on lists of whole units.", "quantifier": "all values and byte lists of any length", "why_tests_cant": "unbounded lists", "anchors": ["cmdis/utilities.py:bytes_to_le16,le16_to_bytes,bytes_to_le32,le32_to_bytes,u32leListToByteList,u16leListToByteList,byteListToU16leList,byteListToU32leList"]}
{"id": "C22", "title": "Bit-field utilities", "statement": "bitmask sets exactly the bits named by its arguments; bfx(v,msb,lsb) reads bits msb..lsb; bfi(v,f,msb,lsb) replaces exactly these bits by f; bfx after bfi returns the field; wmask(n) is n ones; invert32 is the 32-bit complement; hamming_weight counts ones.", "quantifier": "all integers and field positions", "why_tests_cant": "unbounded integers and positions", "anchors": ["cmdis/utilities.py:bitmask,bfx,bfi,wmask,invert32,hamming_weight"]}
{"id": "C23", "title": "Instruction format strings parse to the fields they spell", "statement": "For every sequence of fixed bits, named fields (with or without width) and named constants, written in the documented grammar with any whitespace between items, parse_spec returns exactly that sequence.", "quantifier": "all format strings of the grammar, any length, any whitespace", "why_tests_cant": "infinitely many strings", "anchors": ["cmdis/decoder.py:parse_spec"]}
{"id": "C24", "title": "A decoder accepts exactly the words of its format and extracts each field", "statement": "For any format, the word obtained by writing chosen field values into the format passes Decoder.check and each field read back equals the chosen value; any word that passes check is obtained that way; formats that are not exactly 16 bits are rejected.", "quantifier": "all formats, all field values, all words", "why_tests_cant": "every format x every word", "anchors": ["cmdis/decoder.py:Decoder.check,Decoder.process_fmt,Decoder.decode"]}
{"id": "C25", "title": "The decoder tree returns the highest-priority matching decoder", "statement": "For any set of registered decoders and any word, tree decoding gives the same result as trying, in order of decreasing number of fixed bits (ties by registration order), every decoder whose format matches, skipping those that raise DecodeError.", "quantifier": "all decoder sets, all words", "why_tests_cant": "all decoder sets", "anchors": ["cmdis/decoder.py:DecoderTree.build,DecoderTree._build_tree,DecoderTree.decode"]}
{"id": "C26", "title": "Building the tree terminates and the built-in result does not depend on registration order", "statement": "_build_tree terminates on every list of decoders; for the built-in instruction set any permutation of registration order yields the same decode result for every word.", "quantifier": "all decoder lists; all permutations and words", "why_tests_cant": "115! permutations", "anchors": ["cmdis/decoder.py:DecoderTree._build_tree", "cmdis/instructions.py"]}
{"id": "C27", "title": "Instruction length framing", "statement": "decode(data) depends only on the first two bytes when their top five bits are not 11101/11110/11111 and on the first four otherwise; the decoded size is 2 or 4 accordingly; fewer bytes than that raise.", "quantifier": "all byte strings", "why_tests_cant": "all byte strings of all lengths", "anchors": ["cmdis/decoder.py:DecoderTree.decode"]}
{"id": "C28", "title": "Decoding either succeeds or reports an instruction error", "statement": "decode of at least 2 bytes returns an instruction or raises UndefinedInstructionError or UnpredictableError, never another exception.", "quantifier": "all byte strings of length >= 2", "why_tests_cant": "2**32 words", "anchors": ["cmdis/decoder.py:DecoderTree.decode", "cmdis/instructions.py:push_t2"]}
{"id": "C29", "title": "Decoding has no memory", "statement": "The result of decode(data) is the same whatever was decoded before, by the same tree.", "quantifier": "all histories of decode calls", "why_tests_cant": "all histories", "anchors": ["cmdis/decoder.py:DecoderTree.decode"]}
{"id": "C30", "title": "A decoded instruction reproduces its bytes", "statement": "For every successful decode, i.bytes == data[:i.size] and i.address is the given address.", "quantifier": "all byte strings and addresses", "why_tests_cant": "2**32 words", "anchors": ["cmdis/decoder.py:Instruction.bytes,Decoder.decode"]}
{"id": "C31", "title": "Each built-in encoding decodes to its documented mnemonic and operands", "statement": "For every instruction encoding in the instruction set and every choice of its register, immediate and option fields, decode gives the documented mnemonic, register numbers, immediate value and operand list, or the documented UNPREDICTABLE/see-other-encoding outcome.", "quantifier": "all encodings, all field values", "why_tests_cant": "every field combination of every 32-bit encoding", "anchors": ["cmdis/instructions.py"]}
{"id": "C32", "title": "Disassembly partitions the data", "statement": "disasm(data, a) yields instructions whose addresses start at a and advance by each instruction's size, whose bytes concatenate to a prefix of data, and each is what decode returns at that offset.", "quantifier": "all byte strings and start addresses", "why_tests_cant": "all byte strings of all lengths", "anchors": ["cmdis/disasm.py:Disassembler.disasm"]}
{"id": "C33", "title": "Disassembly ends cleanly", "statement": "disasm stops without an exception after the last complete instruction when only a truncated instruction (fewer than 4 bytes) remains, and reports an undefined instruction elsewhere by UndefinedInstructionError; disassembling a++b from an instruction boundary continues exactly as disassembling b at the advanced address.", "quantifier": "all byte strings", "why_tests_cant": "all lengths including odd ones", "anchors": ["cmdis/disasm.py:Disassembler.disasm"]}
{"id": "C34", "title": "Memory reads return the last value written", "statement": "After write of size 8/16/32 at a mapped address, a read of the same size at the same address returns the value modulo 2**size, until overlapped; multi-byte values are little-endian over the byte addresses.", "quantifier": "all memory maps, addresses, values and write histories", "why_tests_cant": "all histories", "anchors": ["cmdis/mock_cpu.py:write_memory,read_memory", "cmdis/model.py:CpuModel.write_memory,read_memory"]}
{"id": "C35", "title": "A memory write does not disturb other addresses", "statement": "A write changes only the bytes in [addr, addr+size) of the region that contains addr; other bytes, regions and all registers are unchanged; unmapped writes change nothing and unmapped reads return 0; the mapped range never changes.", "quantifier": "all memory maps, addresses and values", "why_tests_cant": "frame over all addresses", "anchors": ["cmdis/mock_cpu.py:_find_mem,write_memory,write_memory_block"]}
{"id": "C36", "title": "Register reads return the last value written", "statement": "After write_register(r, v) with a 32-bit v, read_register(r) returns v (with the documented masking for sp/msp/psp, primask, faultmask, basepri), whichever alias names r; other registers are unchanged except the banked stack pointer mirror; cpu.r[i] agrees with the named registers.", "quantifier": "all registers, values and histories", "why_tests_cant": "all histories", "anchors": ["cmdis/mock_cpu.py:write_register,read_register", "cmdis/model.py:CpuModel.write_register,RegistersInterface", "cmdis/registers.py"]}
{"id": "C37", "title": "The stack pointer mirrors the selected banked stack pointer and stays word aligned", "statement": "At all times sp, msp and psp are multiples of 4 and sp equals msp when CONTROL.SPSEL is 0 and psp when it is 1.", "quantifier": "all histories of register writes and executed instructions", "why_tests_cant": "all histories", "anchors": ["cmdis/mock_cpu.py:MockCpuModelDelegate.write_register"]}
{"id": "C38", "title": "Flag accessors are independent", "statement": "Setting apsr.n/z/c/v makes that flag read back as the low bit assigned and changes no other bit of xpsr and no other register.", "quantifier": "all xpsr values, flags and assigned values", "why_tests_cant": "frame over all bits", "anchors": ["cmdis/model.py:ApsrAlias"]}
{"id": "C39", "title": "The floating point register file reads back what was written", "statement": "After cpu.s[k] = v, cpu.s[k] returns v for 0 <= k < 32.", "quantifier": "all k and v", "why_tests_cant": "never tested", "anchors": ["cmdis/model.py:RegistersInterface.__getitem__"]}
{"id": "C40", "title": "Execution keeps the machine state well-formed", "statement": "Starting from a state with 32-bit registers, executing any decoded instructions keeps every core register in [0,2**32), sp aligned and mirrored, memory cells in 0..255 and the set of regions unchanged.", "quantifier": "all programs, all states, all histories", "why_tests_cant": "all histories", "anchors": ["cmdis/instructions.py:*._eval", "cmdis/model.py", "cmdis/mock_cpu.py"]}
{"id": "C41", "title": "Non-branching instructions advance the pc by their size", "statement": "Executing an instruction that is not a branch and does not name pc as destination sets pc to (pc + size) mod 2**32; a straight-line sequence advances it by the sum of sizes.", "quantifier": "all instructions, states and sequences", "why_tests_cant": "all states", "anchors": ["cmdis/instructions.py", "cmdis/model.py:CpuModel.execute"]}
{"id": "C42", "title": "Add and subtract instructions compute the architectural result and flags", "statement": "add/adds/adc/sub/subs/sbc/rsb write (a+b+carry) mod 2**32 for the architectural operands to the destination and set N,Z,C,V accordingly when they set flags, leaving everything else unchanged.", "quantifier": "all encodings, register contents, flags", "why_tests_cant": "2**64 operand pairs", "anchors": ["cmdis/instructions.py:AddSub,ReverseSubtract"]}
{"id": "C43", "title": "Logical instructions compute bitwise results", "statement": "ands/eors/orrs/bics write the bitwise result of the two registers, set N and Z from it, keep C and V, and leave everything else unchanged.", "quantifier": "all register contents", "why_tests_cant": "2**64 operand pairs", "anchors": ["cmdis/instructions.py:BitOp,BitClear"]}
{"id": "C44", "title": "Shift instructions", "statement": "lsls/lsrs/asrs/rors by immediate or by register (low 8 bits) write the architectural shifted value and set N, Z and C (C kept for a zero amount), keep V and leave everything else unchanged.", "quantifier": "all register contents and amounts", "why_tests_cant": "2**40 cases", "anchors": ["cmdis/instructions.py:ShiftOp"]}
{"id": "C45", "title": "Move instructions copy values", "statement": "mov/movs/movw/mvns copy the register or immediate (complemented for mvns) to the destination, set N and Z only in the flag-setting forms, keep C and V, and leave everything else unchanged.", "quantifier": "all register contents, immediates", "why_tests_cant": "all values", "anchors": ["cmdis/instructions.py:Move,ShiftedMoveNegate"]}
{"id": "C46", "title": "Compare and test set the flags so that conditions mean comparisons", "statement": "After cmp a,b the conditions eq/ne/cs/cc/hi/ls/ge/lt/gt/le hold exactly when the corresponding unsigned or signed comparison of a and b holds; cmn and tst set N,Z,C(,V) from a+b and a&b; no register but pc and flags changes.", "quantifier": "all operand pairs and conditions", "why_tests_cant": "2**64 operand pairs", "anchors": ["cmdis/instructions.py:Compare,Test,CONDITIONS"]}
{"id": "C47", "title": "Branches go to their target", "statement": "b/b<cond>/bl add the signed offset to pc+4 when the condition holds and fall through otherwise; bl/blx set lr to the return address with the T bit; bx/blx go to the register with bit 0 cleared.", "quantifier": "all offsets, conditions, states", "why_tests_cant": "2**24 offsets x states", "anchors": ["cmdis/instructions.py:Branch,b_t1,b_t2,bl_t1,blx_t1,bx_t1"]}
{"id": "C48", "title": "Loads and stores transfer the addressed data", "statement": "ldr/ldrb/ldrh/ldrsb/ldrsh (register, scaled register, immediate and literal forms) write the zero- or sign-extended memory contents at base+offset to the destination; str/strb/strh write the low bits of the register there and nothing else.", "quantifier": "all addresses, memory maps, register contents", "why_tests_cant": "all states", "anchors": ["cmdis/instructions.py:Load,Store,LoadLiteral"]}
{"id": "C49", "title": "Push and pop are inverse", "statement": "push stores the listed registers at descending addresses and lowers sp by 4 per register; pop of the same list right after restores these registers and sp.", "quantifier": "all register lists, register contents, stacks", "why_tests_cant": "2**9 lists x all states", "anchors": ["cmdis/instructions.py:Push,Pop"]}
{"id": "C50", "title": "Load/store multiple transfer the listed registers in ascending order", "statement": "stm/ldm transfer exactly the listed registers, lowest register at lowest address, and write back base + 4*count exactly when write-back is encoded and applicable.", "quantifier": "all lists, base registers, states", "why_tests_cant": "2**16 lists x states", "anchors": ["cmdis/instructions.py:LoadMultiple,StoreMultiple"]}
{"id": "C51", "title": "Extend and byte-reverse instructions", "statement": "sxtb/sxth/uxtb/uxth (with rotation) and rev/rev16/revsh write the architectural function of the source register and leave flags and other registers unchanged.", "quantifier": "all register contents", "why_tests_cant": "2**32 values", "anchors": ["cmdis/instructions.py:Extend,ByteReverse"]}
{"id": "C52", "title": "Multiply returns the low 32 bits of the product", "statement": "muls/mul write (a*b) mod 2**32; muls sets N and Z and keeps C and V; mul sets no flags.", "quantifier": "all register contents", "why_tests_cant": "2**64 pairs", "anchors": ["cmdis/instructions.py:Multiply"]}
{"id": "C53", "title": "PC-relative addresses", "statement": "adr and literal loads use Align(pc+4,4) plus or minus the immediate as the address.", "quantifier": "all pcs and immediates", "why_tests_cant": "all states", "anchors": ["cmdis/instructions.py:AddressToRegister,LoadLiteral"]}
{"id": "C54", "title": "System instructions", "statement": "cps sets exactly the selected masks; mrs copies the selected special register; msr writes it; hints, barriers, bkpt, svc, udf only advance the pc.", "quantifier": "all encodings and states", "why_tests_cant": "tests never execute mrs/msr", "anchors": ["cmdis/instructions.py:ChangeProcessorState,MoveFromSpecial,MoveToSpecial"]}
{"id": "C55", "title": "An instruction object can be executed any number of times", "statement": "Executing a decoded instruction object leaves the object equivalent: executing it again from any state gives the same result as a freshly decoded copy.", "quantifier": "all instructions, all numbers of executions", "why_tests_cant": "needs repeated execution of one object", "anchors": ["cmdis/instructions.py", "cmdis/bitstring.py:__invert__,signed"]}
{"id": "C56", "title": "A failing instruction", "statement": "If execution of a load, store or literal load raises, no register or memory cell has been changed.", "quantifier": "all states and instructions", "why_tests_cant": "all fault points", "anchors": ["cmdis/instructions.py:Load,Store"]}
{"id": "C57", "title": "The byte column of the formatted text identifies the instruction bytes", "statement": "The text starts with the one or two halfwords in 4-digit hex, padded to 12 columns, followed by the mnemonic; decoding the hex gives back i.bytes.", "quantifier": "all instructions", "why_tests_cant": "2**32 words", "anchors": ["cmdis/formatter.py:Formatter.format"]}
{"id": "C58", "title": "Register lists print exactly the listed registers", "statement": "The printed list, reading a-b as all registers from a to b, denotes exactly the set bits, in increasing order, using maximal ranges.", "quantifier": "all register lists of any width up to the register file", "why_tests_cant": "2**16 lists", "anchors": ["cmdis/formatter.py:ReglistOperand"]}
{"id": "C59", "title": "The printed branch target is where the branch goes", "statement": "For b/bl/adr and literal operands the absolute address in the comment equals the address execution uses when pc is the instruction's address.", "quantifier": "all offsets and addresses", "why_tests_cant": "2**24 offsets", "anchors": ["cmdis/formatter.py:LabelOperand", "cmdis/instructions.py:Branch,AddressToRegister"]}
{"id": "C60", "title": "Formatting is repeatable and does not change the instruction", "statement": "Formatting an instruction twice (with the same or different formatter, whatever was formatted before) gives the same text, and execution after formatting behaves as without it.", "quantifier": "all instructions, all formatter histories", "why_tests_cant": "all histories", "anchors": ["cmdis/formatter.py"]}
{"id": "C61", "title": "Special registers print under their architectural names", "statement": "mrs/msr print the special register selected by SYSm, and msr prints the suffix for its mask (_nzcvq, _g, _nzcvqg).", "quantifier": "all SYSm and mask values", "why_tests_cant": "tests only print", "anchors": ["cmdis/formatter.py:SpecialRegisterOperand"]}
{"id": "C62", "title": "Numeric operands print their value", "statement": "Immediates print as # decimal (hidden when zero where requested) with a hex comment when above 9; labels print the signed byte distance from the instruction; parsing the text gives the number back.", "quantifier": "all integers", "why_tests_cant": "unbounded integers", "anchors": ["cmdis/formatter.py:ImmediateOperand,LabelOperand,ShiftRotateOperand,BarrierOperand"]}
{"id": "C63", "title": "Simulator step executes exactly the instruction at pc", "statement": "The step command decodes the bytes at pc & ~1 and executes exactly the first instruction, whatever bytes follow it.", "quantifier": "all memory contents and pcs", "why_tests_cant": "all following bytes", "anchors": ["cmdis/__main__.py:SimTool.handle_step"]}
{"id": "C64", "title": "Simulator memory commands round-trip", "statement": "Data written with the write8/16/32 commands is what the corresponding read command shows, for any in-range data list.", "quantifier": "all addresses and data lists", "why_tests_cant": "unbounded lists", "anchors": ["cmdis/__main__.py:SimTool.do_read,do_write"]}
{"id": "C65", "title": "Reset loads pc and sp from the vector table", "statement": "After creating and resetting the simulator with a binary, sp is the word at 0 (aligned) and pc the word at 4 whenever they point to mapped memory, and unchanged otherwise.", "quantifier": "all binaries", "why_tests_cant": "all binaries", "anchors": ["cmdis/__main__.py:SimTool.create_sim,reset_sim"]}
{"id": "C66", "title": "Hex dumps are labelled with the addresses of their lines", "statement": "The memory read commands print the units of the dump in order, 16 bytes to a line, and each line begins with the address of its first unit.", "quantifier": "all start addresses, widths 8/16/32 and data lists", "why_tests_cant": "unbounded lists; there are no tests of the simulator", "anchors": ["cmdis/__main__.py:dumpHexData"]}
{"id": "C67", "title": "A blank line repeats the last command line", "statement": "Entering a blank line at the console runs the last line entered again; before the first command it does nothing.", "quantifier": "all lines, histories and states", "why_tests_cant": "unbounded histories; there are no tests of the simulator", "anchors": ["cmdis/__main__.py:SimConsole.run", "cmdis/__main__.py:SimTool.process_command"]}
{"id": "C68", "title": "Command arguments mean what they say", "statement": "An ADDR, LEN or DATA argument is a decimal, hexadecimal, octal or binary number with optional sign, a register name (its content), or one of them in brackets with an optional offset (the little-endian word at that address); case does not matter and underscores are ignored.", "quantifier": "all argument strings of these forms and all machine states", "why_tests_cant": "unbounded strings and states", "anchors": ["cmdis/__main__.py:SimTool.convert_value"]}
{"id": "C69", "title": "Only writing and stepping commands change the machine", "statement": "Every console command other than write8/16/32, wreg and step (and $ expressions) leaves registers and memory as they are, and no command takes back what was printed; reg shows the registers and wreg sets exactly the named one.", "quantifier": "all command strings and states", "why_tests_cant": "unbounded strings and states", "anchors": ["cmdis/__main__.py:SimTool.process_command", "cmdis/__main__.py:SimTool.handle_reg", "cmdis/__main__.py:SimTool.handle_write_reg"]}
{"id": "C70", "title": "Every command the help lists exists", "statement": "The names listed by help (and the register names) are accepted as commands, in any case of letters, and run the command described; every other word is reported as unrecognized.", "quantifier": "all command words and argument lists", "why_tests_cant": "unbounded strings and states", "anchors": ["cmdis/__main__.py:SimTool.command_list", "cmdis/__main__.py:SimTool.list_commands"]}
{"id": "C71", "title": "The console survives every command line", "statement": "A line is split at semicolons and white space and its commands run in order; whatever they do, the machine stays well-formed (32-bit registers, aligned sp, memory regions of bytes at the same places), and every failure is reported and the console goes on, except for exit, quit and a bad option.", "quantifier": "all sequences of lines from the start of the program on", "why_tests_cant": "unbounded sessions", "anchors": ["cmdis/__main__.py:SimTool.process_command_line", "cmdis/__main__.py:SimConsole.run"]}
{"id": "C72", "title": "The disasm command lists the instructions at the address", "statement": "disasm [-c] ADDR [LEN] prints, for each instruction in the LEN bytes (default 6) at ADDR rounded down to even (moved back by half of LEN with -c), one line with its address, a star if it is the one at pc, and its text; an undefined instruction is reported and ends the list.", "quantifier": "all states, arguments and memory contents", "why_tests_cant": "unbounded memory contents and addresses", "anchors": ["cmdis/__main__.py:SimTool.handle_disasm", "cmdis/__main__.py:SimTool.print_disasm"]}
{"id": "C73", "title": "Moving code does not change it", "statement": "Decoding, disassembling and executing do not depend on the address: the same bytes at another address give the same instructions moved by the distance, the same ending, the same effect on the machine and the same text except for label targets.", "quantifier": "all byte strings, addresses, machines and decoder histories", "why_tests_cant": "unbounded addresses and byte strings", "anchors": ["cmdis/decoder.py:DecoderTree.decode", "cmdis/disasm.py:Disassembler.disasm", "cmdis/instructions.py", "cmdis/formatter.py:Formatter.format"]}
{"id": "C74", "title": "Python 2 and Python 3 agree", "statement": "The same bytes decode to the same instruction under both interpreters the package supports, and the instruction has the same effect on the machine.", "quantifier": "all byte strings, addresses and machines", "why_tests_cant": "would need both interpreters and all encodings", "anchors": ["cmdis/instructions.py", "cmdis/bitstring.py:bitstring.__nonzero__"]}
{"id": "C75", "title": "The CPU model over any delegate", "statement": "Every access of the CPU model asks its delegate exactly one question, for the register of that name and with addresses and values as integers, and returns the answer as a bitstring (memory: of the width asked for). With any delegate that keeps xPSR the four flags are independent bits of it. Without a delegate reads give None, writes do nothing and everything computed from a register raises TypeError; with the delegate base class registers read as the empty bitstring and memory as zero.", "quantifier": "all delegates with any state, accesses, values", "why_tests_cant": "delegates are user code; a test has one", "anchors": ["cmdis/model.py:CpuModel.read_register", "cmdis/model.py:CpuModel.write_memory", "cmdis/model.py:ApsrAlias", "cmdis/model.py:CpuModelDelegate"]}
{"id": "C76", "title": "Decoder registry lifecycle", "statement": "A DecoderTree may be extended, built and used in any order: build always succeeds; from a build until the next one decoding is decided by exactly the decoders added before that build; before the first build complete instructions raise AttributeError; a registration with an invalid format raises and adds nothing; building and decoding add and remove no decoder. A function of instructions.py that fills in instructions can be registered for further formats: if the fields have the names of its parameters, in any order, it gets them by name; otherwise the registration succeeds and decoding any word of the format raises TypeError.", "quantifier": "all sequences of add, build and decode calls, all decoders and handlers", "why_tests_cant": "unbounded histories", "anchors": ["cmdis/decoder.py:DecoderTree.add_decoder", "cmdis/decoder.py:DecoderTree.build", "cmdis/decoder.py:DecoderTree.decode", "cmdis/decoder.py:instr", "cmdis/instructions.py"]}
{"id": "C77", "title": "Defaults and texts of the objects", "statement": "A fresh instruction has address 0, no operands and the class's defaults; the CPU model reports no DSP or FP extension and no IT block; dump() prints every core register once under its name with eight hexadecimal digits; repr of the CPU model and of instructions show the registers and the word.", "quantifier": "all machine states and instructions", "why_tests_cant": "all register values", "anchors": ["cmdis/model.py:CpuModel.dump", "cmdis/model.py:CpuModel.__repr__", "cmdis/decoder.py:Instruction.__init__", "cmdis/decoder.py:Instruction.__repr__"]}
{"id": "C78", "title": "Expressions, methods and shared objects", "statement": "With bitstring objects shared between names: a binary operator expression changes no existing object and returns a new one with the value the operator has on values; ~x and invert() change x to its complement and return x, reverse() reverses x and returns x; reading x.signed gives the two's complement value and leaves a negative x complemented; sign_extend and zero_extend to the present width return x itself (so that later changes show in x), to a greater width a new object, to a smaller one ValueError.", "quantifier": "all heaps of well-formed objects, all references and operands, all ten operators", "why_tests_cant": "aliasing between any two names", "anchors": ["cmdis/bitstring.py:bitstring.__invert__", "cmdis/bitstring.py:bitstring.signed", "cmdis/bitstring.py:bitstring.sign_extend", "cmdis/bitstring.py:bitstring.zero_extend", "cmdis/bitstring.py:bitstring.__init__"]}
{"id": "C79", "title": "In-place operators and item assignment on shared objects", "statement": "x op= y gives the object x the value of the expression x op y, keeps its identity, and changes no other object, also if y is x; x[k] = y changes x as item assignment on values does and nothing else, also if y is x; if either raises nothing has changed.", "quantifier": "all heaps of well-formed objects, all references, operands, keys", "why_tests_cant": "aliasing between any two names", "anchors": ["cmdis/bitstring.py:bitstring.__iadd__", "cmdis/bitstring.py:bitstring.__imod__", "cmdis/bitstring.py:bitstring.__setitem__", "cmdis/bitstring.py:bitstring.set"]}
{"id": "C80", "title": "AddWithCarry on shared objects", "statement": "AddWithCarry(x, y, c) returns the sum, carry and overflow of the values x, y and c have when it is called, also if x and y are the same object.", "quantifier": "all heaps of well-formed objects, all references", "why_tests_cant": "aliasing between any two names", "anchors": ["cmdis/helpers.py:AddWithCarry", "cmdis/bitstring.py:bitstring.signed"]}
{"id": "C81", "title": "The program as a whole", "statement": "A $ command evaluates what follows the dollar sign and shows the value (an int in hexadecimal and decimal, nothing for None, an exception as a message); all other commands do what they do without it; Ctrl-C at the prompt, or while an expression is evaluated, only ends the line; a blank line repeats the last line; a session ends with the end of the input or with a command that ends it, and nothing after that is read. For every binary, everything typed and everything the expressions may do, the program ends with status 0, or with status 2 after bad arguments of the disassembly command, or with the status of a SystemExit an expression raised, and no exception gets out. If the expressions keep the machine valid, so does the session.", "quantifier": "all evaluators of expressions (a function of the text and the machine), all binaries, all sequences of lines and interruptions", "why_tests_cant": "unbounded sessions with arbitrary expressions", "anchors": ["cmdis/__main__.py:SimConsole.run", "cmdis/__main__.py:SimConsole.process_command", "cmdis/__main__.py:SimTool.run", "cmdis/__main__.py:SimTool.handle_python"]}
{"id": "C82", "title": "The dump of the decoder tree", "statement": "After build, dump prints every decoder that was built exactly once, the 16-bit ones first, as an outline in which every decoder stands under the masks and keys it matches; registering more decoders does not change it.", "quantifier": "all sequences of registrations and builds, all decodes in between", "why_tests_cant": "every decoder table", "anchors": ["cmdis/decoder.py:DecoderTree.dump", "cmdis/decoder.py:Decoder.__repr__", "cmdis/decoder.py:DecoderTree._build_tree"]}
{"id": "C83", "title": "Many steps from the console", "statement": "A sequence of lines that each hold one step command (or are blank, which repeats the last one) executes one instruction per line, as long as the bytes at the pc decode and the instruction does not raise: the machine is then the one that running the instructions one after the other gives, and the lines printed are those of the instructions, in order.", "quantifier": "all machines, all numbers of steps, all spellings of the command", "why_tests_cant": "unbounded sequences of commands", "anchors": ["cmdis/__main__.py:SimTool.handle_step", "cmdis/__main__.py:SimConsole.process_command_line"]}
{"id": "C84", "title": "Call and return", "statement": "bl and blx leave in lr the address of the instruction behind them, with bit 0 set, and change no other register but the pc; whatever happens next, bx lr goes there if lr holds that value again, and changes nothing else.", "quantifier": "all decoded calls and returns, all machines before the call and before the return", "why_tests_cant": "all addresses and register contents, arbitrary code in between", "anchors": ["cmdis/instructions.py:Branch,bl_t1,blx_t1,bx_t1"]}
{"id": "C85", "title": "A store and a load", "statement": "A load gets back, extended to a word, what a store of the same size has written to the same address, however the two compute it and whatever happened to the registers in between; a load from addresses the store has not written gets what it would have got without it. Every load and store there is has this form.", "quantifier": "all decoded loads and stores, all machines", "why_tests_cant": "all addresses, values and offsets", "anchors": ["cmdis/instructions.py:Load,Store", "cmdis/mock_cpu.py:MockCpuModelDelegate.read_memory", "cmdis/mock_cpu.py:MockCpuModelDelegate.write_memory"]}
{"id": "C86", "title": "A multiple store and a multiple load", "statement": "A load multiple of a register list, from the address at which a store multiple of the same list has stored, brings back the listed registers, whatever happened to the registers in between and whichever register holds the address.", "quantifier": "all register lists, base registers and machines", "why_tests_cant": "all addresses, contents and lists, arbitrary code in between", "anchors": ["cmdis/instructions.py:StoreMultiple,LoadMultiple"]}
{"id": "C87", "title": "Entering and leaving a function by push and pop", "statement": "A pop of a list with the pc in the place of lr, after a push of the list with lr, brings back the other registers and the stack pointer and continues at the address that lr held.", "quantifier": "all register lists and machines, any code in between that keeps sp and the stack", "why_tests_cant": "all stack positions, contents and lists, arbitrary code in between", "anchors": ["cmdis/instructions.py:Push,Pop,push_t1,pop_t1"]}
{"id": "C88", "title": "Every encoding is used", "statement": "For every encoding in the built-in set there are words that the decoder turns into an instruction as this encoding says: none is hidden by the others and none always fails.", "quantifier": "all encodings, all addresses, any bytes behind the word", "why_tests_cant": "the words would have to be found among 2^32", "anchors": ["cmdis/instructions.py", "cmdis/decoder.py:DecoderTree"]}
{"id": "C89", "title": "Operands of any content", "statement": "Operands made by other code than the decoders print the same way whatever they hold: registers by name, lists by their runs, shifts, barrier options, flags, immediates and labels by their numbers, memory operands by their parts; a number without a register raises KeyError, and an operand that refers to the current instruction raises AttributeError outside of one. The line of any instruction object is made of the texts and comments of its operands, in order.", "quantifier": "all operand objects, all instruction objects, all formatters", "why_tests_cant": "unbounded numbers, widths and nesting", "anchors": ["cmdis/formatter.py"]}
{"id": "C90", "title": "Instruction objects as constructed", "statement": "Executing an instruction object that no decoder has filled in raises AttributeError and changes neither machine nor object, whatever its class, except for the classes whose execution uses no attribute.", "quantifier": "all classes, words and machines", "why_tests_cant": "all machine states", "anchors": ["cmdis/instructions.py", "cmdis/decoder.py:Instruction"]}
{"id": "C91", "title": "Programs only go forward", "statement": "A sequence of instructions that neither name the pc as a destination nor branch to the address in a register executes no instruction twice: each one moves the pc forward, by at least 2 (a backward branch, too, because of the defect recorded in C47).", "quantifier": "all decoded instructions, all machines, sequences of any length", "why_tests_cant": "unbounded executions", "anchors": ["cmdis/instructions.py:Branch"]}
{"id": "C92", "title": "What an instruction may change", "statement": "Executing an instruction changes no register other than the pc, the registers its class and operands name as results, and (for those that set flags) the status register, of which bits 0 to 27 never change; only stores, pushes and store multiples change memory. This holds also when the execution raises.", "quantifier": "all instruction objects and machines, both Python versions", "why_tests_cant": "the absence of an effect on every other register and byte, for all contents", "anchors": ["cmdis/instructions.py"]}
{"id": "C93", "title": "What an instruction depends on", "statement": "The outcome of executing an instruction and everything it writes depend only on the registers it uses and, for those that touch memory, on the memory: two machines that agree there give the same outcome and the same effects.", "quantifier": "all instruction objects and pairs of machines", "why_tests_cant": "a relation between all pairs of machines", "anchors": ["cmdis/instructions.py"]}
{"id": "C94", "title": "Independent instructions commute", "statement": "Two instructions of which neither changes a register that the other uses or changes, neither uses the pc, and of which at most one touches memory if it is written, can be executed in either order with the same memory, registers and outcome.", "quantifier": "all pairs of decoded instructions and all machines on which both succeed", "why_tests_cant": "all pairs of instructions and all machine states", "anchors": ["cmdis/instructions.py", "cmdis/core.py:CpuCore.execute"]}
{"id": "C95", "title": "What is printed determines what is done", "statement": "The line printed for a decoded instruction, from the mnemonic to the comment, can be read back by an assembler-style table without looking at the bytes: what is read has the instruction's size and class, and an instruction constructed from it does exactly the same to every machine. So two decoded instructions that print the same do the same.", "quantifier": "all decodable byte sequences, addresses and machines", "why_tests_cant": "all 16- and 32-bit encodings with every operand value, and all machine states", "anchors": ["cmdis/formatter.py", "cmdis/instructions.py", "cmdis/decoder.py"]}
{"id": "C96", "title": "Instruction objects with values no encoding has", "statement": "An instruction object made by hand and executed: an extension of any width up to 32 keeps that many bits; a byte reversal of a width other than 4 and 2 gives zero; a shift by a negative amount (LSL, LSR, ASR) or an RRX not by one raises AssertionError and changes nothing; a branch on a condition that is not in the table raises KeyError and changes nothing; a literal load of a size the memory does not know gives zero and a store of one only moves the pc.", "quantifier": "all such attribute values, machines and interpreters", "why_tests_cant": "unbounded amounts and widths, all register contents", "anchors": ["cmdis/instructions.py", "cmdis/helpers.py:Shift_C", "cmdis/mock_cpu.py"]}
{"id": "C97", "title": "Straight-line code can be reordered", "statement": "A list of instructions of which no two have a register in common that one of them changes, none names or needs the pc, and of which the memory is touched by nothing else if one writes it, can be executed in any order: if one order succeeds every order does, with the same memory and the same contents of every register; if one raises, all do.", "quantifier": "all lists of decoded instructions, all permutations, all machines", "why_tests_cant": "unboundedly many instructions and orders, and all machine states", "anchors": ["cmdis/instructions.py", "cmdis/decoder.py:Instruction.execute"]}
{"id": "C98", "title": "The program's command line", "statement": "The program accepts a log level (any number of times, the option in any spelling or abbreviation, with its value attached or as the next word) and at most one file, in any order; it accepts nothing else. It then runs the simulator on the contents of the file, or on nothing without a file; the log level makes no difference to what it does and to its standard output. The level decides only whether a line is logged on standard error, and the only such line is about a name that no register has, given to wreg; the level critical suppresses it, and the command log sets the level. Besides, standard error has only tracebacks, usage and version. Everything else shows help or version, or is reported as a misuse, and the program never ends with a traceback.", "quantifier": "all argument lists, all file systems, all input typed", "why_tests_cant": "unboundedly many argument lists and orders; the parser of the library has corner cases (abbreviations, attached values, two dashes, words that look like numbers) that few tests visit", "anchors": ["cmdis/__main__.py:SimTool.get_args", "cmdis/__main__.py:SimTool.configure_logging", "cmdis/__main__.py:SimTool.run"]}
{"id": "C99", "title": "Executing instructions over any delegate", "statement": "The CPU keeps no state of its own, so executing an instruction is a list of calls of its delegate's methods, whatever the delegate does: recording the calls changes nothing; the delegate ends as these calls in this order leave it; an exception of a call ends the instruction and comes out unchanged; delegates that answer alike give the same results, so one that stores registers and memory in another way than the built-in one runs every program the same. Which registers are accessed and how much memory, and in which order, is a function of the instruction alone, up to the flags a conditional branch depends on and the privilege MRS depends on. Without any delegate every decoded instruction raises -- AttributeError, NameError or TypeError, by its class and attributes -- and changes at most its own immediate and flag setting; a list of instructions ends at the first. An instruction or a list of them that is stopped by an exception at its n-th call, or between two calls, leaves the delegate exactly as the first n calls of the uninterrupted run leave it, and the exception comes out.", "quantifier": "all delegates, states, instruction objects and programs", "why_tests_cant": "delegates are arbitrary objects; no test can run over all of them", "anchors": ["cmdis/instructions.py", "cmdis/model.py:CpuModel.execute", "cmdis/model.py:CpuModelDelegate", "cmdis/decoder.py:Instruction.execute"]}
