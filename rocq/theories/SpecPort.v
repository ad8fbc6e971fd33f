(** * Vocabulary for the statements about moving code and changing the interpreter *)
From Verif Require Import ExecModel DisasmModel FormatModel SpecBits SpecCpu SpecWhole SpecDecoder SpecExec SpecFormat SpecIsa SpecDisasm.
Local Open Scope Z_scope.

(** The same instruction object at another address. *)
Definition at_address (b : Z) (i : insn) : insn :=
  mkinsn (i_mnemonic i) (i_word i) (i_is32 i) b (i_klass i) (i_operands i) (i_attrs i).
Definition moved_by (d : Z) (i : insn) : insn := at_address (i_address i + d) i.
Definition renamed (m : string) (i : insn) : insn :=
  mkinsn m (i_word i) (i_is32 i) (i_address i) (i_klass i) (i_operands i) (i_attrs i).
Definition on_ok {A B} (f : A -> B) (r : res A) : res B := match r with Ok x => Ok (f x) | Err e => Err e end.

(** Two objects that stand for the same operation: class, size and attributes, whatever
    their address, word, mnemonic and operand objects. *)
Definition alike (i j : insn) : Prop := i_klass i = i_klass j /\ i_size i = i_size j /\ i_attrs i = i_attrs j.
(** [j] with the attributes of [i]. *)
Definition attrs_of (i j : insn) : insn :=
  mkinsn (i_mnemonic j) (i_word j) (i_is32 j) (i_address j) (i_klass j) (i_operands j) (i_attrs i).

(** The classes that transfer a list of registers. *)
Definition transfers_list (k : klass) : bool := match k with Push | Pop | LoadMultiple | StoreMultiple => true | _ => false end.
(** Whether a label occurs among the operands of an instruction. *)
Fixpoint is_label (o : operand) : bool := match o with LabelOp _ => true | MemOp l => existsb is_label l | _ => false end.
Definition has_label (i : insn) : bool := existsb is_label (i_operands i).

(** What Python 3 makes of a mnemonic decoded by Python 2: the 32-bit moves always get an
    "s", because a bitstring is always true there. *)
Definition py3_name (m : string) : string :=
  if String.eqb m "mov.w" then "movs.w" else if String.eqb m "mvn.w" then "mvns.w" else m.
Definition py3_insn (i : insn) : insn := renamed (py3_name (i_mnemonic i)) i.
