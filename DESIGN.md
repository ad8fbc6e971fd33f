# Formal model of flit/cmdis in Rocq (Coq 8.16.1)

## Approach

The Python sources under `/repo/cmdis` are transcribed function by function into
total, computable Gallina functions (files `*Model.v`), every definition citing
file and lines.  Python integers are `Z`; Python's bit operators on ints
coincide with `Z.land/lor/lxor/lnot/shiftl/shiftr`.  Exceptions are values
(`res A := Ok a | Err e`); where an exception can strike after part of the
state was already changed, the function returns the partially changed state
next to the error.  In-place mutation (`~x`, `x.signed`, `x == -1`, `x %= y`...)
is modelled by returning the new object; where two attributes alias one
object the model says so explicitly (an operand holds a reference to the
attribute, not a copy).

Two interpreters are in scope (`.travis.yml`: 2.7 and 3.7).  They differ for
this code in the truth value of a bitstring (`__nonzero__` is only honoured by
Python 2; Python 3 falls back to `__len__`), in `oct()`, in `/`, and in `bytearray`
(a `collections.Sequence` in Python 3 only, so the constructor takes another branch).
Functions that depend on it take a `pyver` argument (`Py2 | Py3`).

Properties are stated in `Prop*.v` files against small specification files
(`Spec*.v`) written with `Z` arithmetic / `Z.testbit`, not with model helpers.
Each is proved for all inputs, by induction, arithmetic, or (where the domain is
really finite, such as the table of encodings or 16-bit words) by an exhaustive
computation lifted with `forallb_forall`.

Where the unchanged code violates the English property, the file contains
`..._refuted` (a witness, checked by `vm_compute`), and the strongest true
statement under the name `..._partial` (or an exact characterisation).

## Files

| model | code | spec vocabulary | proofs | theorems |
|-------|------|-----------------|--------|----------|
| `PyBase.v` | Python features used: ints, slices, `%` formatting, exceptions | | | |
| `BitstringModel.v` | `bitstring.py` | `SpecBits.v` | `BitFacts.v BitOps.v BitText.v BitMisc.v BitThms.v` | `PropBit.v` (C01-C15) |
| `HelpersModel.v` | `helpers.py` | `SpecBits.v SpecArm.v` | `HelpFacts.v HelpThms.v` | `PropHelp.v` (C16-C20) |
| `UtilModel.v` | `utilities.py` | `SpecBits.v` | `UtilFacts.v UtilThms.v` | `PropUtil.v` (C21-C22) |
| `CpuModel.v` | `registers.py`, `model.py`, `mock_cpu.py` | `SpecCpu.v` | `CpuFacts.v CpuThms.v` | `PropCpu.v` (C34-C39) |
| `InsnModel.v` | the classes of `instructions.py`: attributes, operands | | | |
| `DecoderModel.v` | `decoder.py` | `SpecDecoder.v` | `ParseFacts.v TreeFacts.v DecThms.v` | `PropDec.v` (C23-C27, C29) |
| `TableModel.v` | `instructions.py`: the registered encodings and handlers | `SpecIsa.v` | `IsaFacts.v IsaOps.v IsaRows.v IsaThms.v IsaBound.v` | `PropIsa.v` (C25, C26, C28, C30, C31) |
| `ExecModel.v` | `instructions.py`: every `_eval`; `Instruction.execute` | `SpecExec.v SpecWhole.v SpecArm.v` | `Exec*Facts/Thms/Shape/Rows.v` | `PropExec*.v` (C40-C56) |
| `DisasmModel.v` | `disasm.py` | `SpecDisasm.v` | `DisasmThms.v` | `PropDisasm.v` (C32, C33) |
| `FormatModel.v` | `formatter.py`, `format` of the operands | `SpecFormat.v` | `FormatFacts.v FormatThms.v` | `PropFormat.v` (C57-C62) |
| `SimModel.v` | `__main__.py` | `SpecSim.v SpecConsole.v` | `SimFacts.v SimThms.v ConsoleThms.v` | `PropSim.v PropConsole.v` (C63-C72) |
| `DelegateModel.v RegistryModel.v` | `model.py` with any delegate; `DecoderTree` as an object; texts | `SpecApi.v` | `ApiThms.v` | `PropApi.v` (C75-C77) |
| `HeapModel.v` | `bitstring.py` and `AddWithCarry` on objects shared between names | `SpecHeap.v` | `HeapThms.v` | `PropHeap.v` (C78-C80) |
| `DumpModel.v` | `DecoderTree.dump`, `Decoder.__repr__` | `SpecDump.v` | `DumpThms.v` | `PropDump.v` (C82) |
| `ProgramModel.v` | `__main__.py`: `$` commands with any `eval`, Ctrl-C at the prompt, exit status, `hex_width` | `SpecProg.v` | `ProgThms.v` | `PropProg.v` (C81) |
| `ArgsModel.v` | `__main__.py`: `get_args`, `configure_logging`, reading the file, `run` as a whole | `SpecArgs.v` | `ArgsThms.v` | `PropArgs.v` (C98) |
| `StderrModel.v` | `__main__.py`, `registers.py`: the program with a log level and standard error | `SpecErr.v` | `StderrThms.v` | `PropStderr.v` (C98) |
| `DelegateExecModel.v` | `instructions.py`, `Instruction.execute`, `CpuModel.execute` with any delegate | `SpecAny.v` | `AnyThms.v` | `PropAny.v` (C99) |
| | the same when an exception stops it between two calls of the delegate | `SpecStop.v` | `StopThms.v` | `PropStop.v` (C99) |
| `AloneModel.v` | the same with no delegate at all | `SpecAlone.v` | `AloneThms.v` | `PropAlone.v` (C99) |
| (`TableModel.v`) | the functions of `instructions.py` called with fields of any names | `SpecHandlers.v` | `HandlerThms.v` | `PropHandler.v` (C76) |
| (several instructions, over the models above) | stepping many times, call and return, store and load | `SpecRun.v` | `RunThms.v` | `PropRun.v` (C83-C85) |
| (several instructions, the table) | multiple store and load, push and pop of the return address, every encoding is used | `SpecMore.v` | `MoreThms.v` | `PropMore.v` (C86-C88) |
| (several instructions) | where execution goes | `SpecForward.v` | `ForwardThms.v` | `PropForward.v` (C91) |
| (instructions) | what an instruction changes | `SpecFrame.v` | `FrameFacts.v`, `FrameThms.v` | `PropFrame.v` (C92) |
| (instructions) | what it depends on; reordering | `SpecFrame.v` | `DependFacts.v`, `DependThms.v` | `PropDepend.v` (C93, C94) |
| (formatter, instructions) | reading a printed line back | `SpecAsm.v` | `AsmFacts.v`, `AsmThms.v` | `PropAsm.v` (C95) |
| (instructions) | values no encoding has | `SpecExec.v` | `HandThms.v` | `PropHand.v` (C96, and C54_mrs_other) |
| (several instructions) | reordering a list | `SpecOrder.v` | `OrderThms.v` | `PropOrder.v` (C97) |
| (instructions) | objects as constructed | | `BareThms.v` | `PropBare.v` (C90) |
| (formatter) | operands of any content | `SpecOperand.v` | `OperandThms.v` | `PropOperand.v` (C89) |
| (decoder tree) | words that no decoder takes: which exception | `SpecMiss.v` | `MissThms.v` | `PropMiss.v` (C25, C31) |
| (bitstring, helpers, utilities, dump) | remaining corner cases: ill-typed operands, odd widths, negative amounts and offsets | | `CornerThms.v` | `PropCorner.v` (C02, C05, C08, C12, C14, C15, C17, C21, C82) |
| all of these | | `SpecPort.v` | `PortThms.v` | `PropPort.v` (C73-C74) |

`Prop*.v` are generated from the proof files by `tools/genprops.py` (statement copied,
closed by `exact`); `MANIFEST.json` by `tools/manifest.py`.  The generated files are
committed; the build needs neither script.

## Plan per property

| id | proof |
|----|-------|
| C01-C15 bitstrings | invariants and `Z.testbit` extensionality; C01 by induction over operation lists |
| C16-C20 helpers | arithmetic, `Z.testbit`; C18/C19 lifted from all 4096/32 cases |
| C21-C22 utilities | list induction, `Z.testbit` |
| C23 format strings | simulation of the state machine of `parse_spec` by induction over the items |
| C24 decoders | induction over format items |
| C25, C26, C29 decoder tree | well-founded recursion on list length; tree = scan by induction; the built-in table by computation |
| C27, C28, C30, C31 decoding | case analysis, generic overlap lemma, one sweep over the rows of the table with symbolic fields |
| C32, C33 disassembly | induction on the remaining bytes against the relation `listing` |
| C34-C39 machine state | list lemmas, invariants over histories of operations |
| C40, C41, C55, C56 any instruction | sweep over the rows of the table: invariants, pc, object after execution |
| C42-C54 instruction classes | per-class functional theorems against the pseudocode of the manual in `SpecArm.v`/`SpecExec.v` |
| C57-C62 formatter | string lemmas, induction over bit lists, sweep over the rows |
| C63-C66, C68 simulator commands | composition of the above; induction over dumps and argument strings |
| C67, C69-C72 console | a relation between states closed under every command, induction over lines |
| C73, C74 moving code, Python 2 and 3 | handlers commute with changing the address (or mnemonic), lifted through the tree; a relation on computations closed under every `execute` |
| C75 any delegate | case analysis over a record of functions; a recording delegate; the mock delegate is shown to give the functions of `CpuModel.v` |
| C76 registry | induction on the sequence of calls; the trees are those of C26 up to changes decoding does not see (C29); the fields of a format against the parameters of the function |
| C77 texts | unfolding, with the lemmas on `%x` of C13 |
| C78-C80 shared objects | a heap of objects; each method is run attribute by attribute and shown to refine the function on values when the objects differ; exact results when they are the same |
| C81 program | an invariant rule for sessions; the session of C67-C71 as a special case |
| C82 dump | induction on the building of the tree, against an inductive description of outlines |
| C83 stepping | induction on the run, with the console and step lemmas |
| C84 call/return | the branch rows of the table, then C47 twice |
| C85 store/load | C48 for both, with the bytes written read back (or kept) in between |
| C86 multiple store/load | C50 for both, with the words stored read back in between (Python 2) |
| C87 push lr, pop pc | as C49, with the word of lr read into the pc (Python 2) |
| C88 encodings used | one witness per row, checked by computation against all rows before it; then C31 |
| C89 operands | by cases; the list of registers by induction over its bits, with the current run as state |
| C90 bare objects | by cases on the class, running up to the first attribute |
| C91 forward | C41 and C47 for one step, induction on the walk |
| C92 frame | a predicate on one computation (register outside the set, memory, low status bits kept), closed under the monad, then per class |
| C93 depends | a relation on two computations from two machines, closed under the monad, with a flag for whether the pc has moved, then per class |
| C94 commute | C92 and C93 for each of the two orders, C41 for the pc |
| C95 what is printed | every row of the specification read back through a table of mnemonics; texts of operands read back by first character; C73 for the effect |
| C96 unusual attribute values | the step lemmas of C44-C56 without the bounds the encodings give |
| C97 reorder | induction on the permutation; C94 for a swap, C93 for the rest of the list |
| C98 arguments | what a word is by cases on its first characters; soundness of the parsing loop by induction on the number of words, completeness by induction on the grammar; for standard error, each command that looks up registers is shown equal to the one without logging, and the one exception (wreg) exactly described |
| C99 any delegate | a simulation between two delegates and one between any delegate and `ExecModel.v`, class by class; an invariant about the recorded calls; a weakest-precondition calculus over the list of calls; without a delegate, the steps of each class up to the first use of None |

No listed property is believed to be inexpressible.

## Trusted base

- Coq's kernel, including its virtual machine (`vm_compute`).
- `Print Assumptions` stands under every theorem in `Prop*.v`; for every one of them it
  prints "Closed under the global context": no axiom is used, neither of the standard
  library nor of our own.  (`coqchk` names seven items of `Coq.ssr.ssrunder.Under_rel`, the
  parameters of a module type of Coq's own library that is loaded along with it; no
  theorem depends on them.)
- That the Gallina definitions say what the Python code does.  Each definition cites the
  lines it transcribes.  Nothing was extracted or run against the Python code.

Everything else (spec files, proofs, scripts) is checked: a spec file that says too little
shows up only by reading the theorem, so the spec files are short and use `Z` arithmetic.

### Modelled

All functions of `bitstring.py`, `helpers.py`, `decoder.py`, `disasm.py`, `formatter.py`,
`registers.py`, `model.py`, `mock_cpu.py`, all classes, handlers and encodings of
`instructions.py`, `utilities.py` and `__main__.py` except for what follows.

### Not modelled, and simplifications

- `utilities.py`: the two float conversions use the module `struct`, which is not
  imported; they are modelled as raising NameError, as they do.
- `model.py`: the attribute `mode` (never read).  Logging is represented only for the
  program (`StderrModel.v`): the one message comes from `registers.py`.
- `formatter.py`: the attribute `cpu` (never read) and the base class `Operand`.
- `decoder.py`: `dump` is modelled for dictionaries in order of insertion; Python 2 has
  another order, which C82 does not depend on (it speaks of some order of the blocks).
- `__main__.py`: `readline` history, the texts of help, version, usage errors and
  tracebacks (items `UsageText`, `VersionText` and `Trace e` of standard error stand for
  them, `ErrText e` for the text of an exception on standard output).  Standard output and
  standard error are two lists; how they interleave is not represented.  `eval` is an arbitrary function from the text and the machine to a new
  machine and a value, an exception, SystemExit or KeyboardInterrupt; what it may print or do
  to the console object is not represented, nor Ctrl-C while a command runs that is not an
  expression.
- `argparse` (used by `get_args`) is modelled as far as the three `add_argument` calls need
  it, after the library of Python 2.7.18.  The model was compared with the argparse of
  Python 3.11 on 3000 argument lists; they differ only where 3.11 has changed (`-h` with
  something attached, and `--` as an attached log level).  What `open` does is an arbitrary
  function from names to contents or failure; a file that opens but cannot be read is not
  represented.  Standard input used as the binary is the typed lines, each with a newline.
- `bitstring.__hash__` is the hash of the modelled `repr` string.
- Python: attribute lookup, method resolution and object identity are resolved by hand;
  aliasing is modelled where the code can observe it (see above), and for bitstrings used
  by other programs in `HeapModel.v`.  Integers are unbounded in
  Python and in the model.  Recursion depth, memory exhaustion, threads, and
  KeyboardInterrupt elsewhere than in the console are not modelled, except that `SpecStop.v`
  stops instructions at any call of the delegate.
- `__main__.py` is Python 2 only (print statements), so its model fixes `Py2`.
- Loops without an obvious bound run on fuel; exhaustion is the value `OutOfFuel`, and the
  theorems show that it does not occur (or when it does: `hamming_weight` of a negative
  number, where the Python loop does not end).

## The repository's own tests

`SuiteTests.v` carries the tests of /repo/test over to the model by hand and runs them with
`vm_compute`, to check the model against what the authors of the program expect.  All tests
of bitstrings, helpers and the format parser hold.  Of the instruction tests, under Python 2
two fail (`rsbs` and a backward branch), and so they must: the program inverts a number when it reads
its sign.  Under Python 3 those of register lists fail as well.  These are tests on literals and
count as evidence for the model only; no theorem uses them.

## Mutation tests

`seeded/LOG.jsonl` records edits of the model made in a scratch copy, one at a time, and
what failed to prove afterwards.  Examples (tests on literals) were removed from the
scratch copy, so that only theorems count.
