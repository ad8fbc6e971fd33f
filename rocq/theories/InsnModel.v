(** * Instruction objects (decoder.py:26-64, instructions.py, formatter.py)

    An instruction object is a record: the slots set by [Instruction.__init__],
    its class, and one optional entry for each further attribute that some
    handler or class assigns.  A missing attribute is [None]; reading it is
    AttributeError, [hasattr] tests it.  Not represented: [unaligned_allowed],
    [carry] and [mask], which are assigned by handlers (instructions.py:408, 791,
    799, 808, 981) and never read. *)
From Verif Require Export CpuModel.

(** The classes of instructions.py (and decoder.py:28). *)
Inductive klass :=
| Instruction | AddSub | BitOp | BitClear | ShiftOp | ReverseSubtract | Multiply
| AddressToRegister | Extend | ByteReverse | Move | ShiftedMoveNegate | Compare | Test
| Branch | Load | Store | LoadLiteral | Push | Pop | LoadMultiple | StoreMultiple
| ChangeProcessorState | MoveFromSpecial | MoveToSpecial.

(** instructions.py:29-32 *)
Inductive setflags := Always | Never | NotInITBlock.

(** operator.and_, operator.xor, operator.or_ (instructions.py:105, 106, 113) *)
Inductive bitop := OpAnd | OpXor | OpOr.

(** formatter.py:25-197, the operand objects.  [ImmRefOp] is an
    [ImmediateOperand] holding the same bitstring object as the attribute
    [imm32] (instructions.py:130, 139), so it shows that attribute's current
    value.  [SpecialOp] holds the only reference to the mask that is ever read. *)
Inductive operand :=
| RegOp (reg : Z) (wback : bool)
| ReglistOp (reglist : bs)
| ImmOp (imm : Z) (hideIfZero : bool)
| ImmRefOp
| LabelOp (offset : Z)
| ShiftRotateOp (type : srtype) (amount : Z)
| BarrierOp (option : Z)
| MemOp (operands : list operand)
| CpsOp (affectPri affectFault : bool)
| SpecialOp (spec : bs) (mask : option bs).

Record attrs := mkattrs {
  a_d : option Z;
  a_n : option Z;
  a_m : option Z;
  a_t : option Z;
  a_imm32 : option bs;
  a_setflags : option setflags;
  a_use_carry : option bool;
  a_sub : option bool;
  a_negate : option bool;
  a_op : option bitop;
  a_type : option srtype;
  a_shift_t : option srtype;
  a_shift_n : option Z;
  a_rotation : option Z;
  a_width : option Z;
  a_signed : option bool;
  a_with_link : option bool;
  a_cond : option Z;
  a_pc_delta : option Z;
  a_memsize : option Z;
  a_index : option bool;
  a_add : option bool;
  a_wback : option bool;
  a_registers : option bs;
  a_enable : option bool;
  a_affectPri : option bool;
  a_affectFault : option bool;
  a_SYSm : option bs }.

Definition no_attrs : attrs := mkattrs None None None None None None None None None None None None None None
None None None None None None None None None None None None None None.

(** Assignment to one attribute. *)
Definition with_d (v : Z) (a : attrs) : attrs :=
  mkattrs (Some v) (a_n a) (a_m a) (a_t a) (a_imm32 a) (a_setflags a) (a_use_carry a) (a_sub a) (a_negate a)
(a_op a) (a_type a) (a_shift_t a) (a_shift_n a) (a_rotation a) (a_width a) (a_signed a) (a_with_link a)
(a_cond a) (a_pc_delta a) (a_memsize a) (a_index a) (a_add a) (a_wback a) (a_registers a) (a_enable a)
(a_affectPri a) (a_affectFault a) (a_SYSm a).
Definition with_n (v : Z) (a : attrs) : attrs :=
  mkattrs (a_d a) (Some v) (a_m a) (a_t a) (a_imm32 a) (a_setflags a) (a_use_carry a) (a_sub a) (a_negate a)
(a_op a) (a_type a) (a_shift_t a) (a_shift_n a) (a_rotation a) (a_width a) (a_signed a) (a_with_link a)
(a_cond a) (a_pc_delta a) (a_memsize a) (a_index a) (a_add a) (a_wback a) (a_registers a) (a_enable a)
(a_affectPri a) (a_affectFault a) (a_SYSm a).
Definition with_m (v : Z) (a : attrs) : attrs :=
  mkattrs (a_d a) (a_n a) (Some v) (a_t a) (a_imm32 a) (a_setflags a) (a_use_carry a) (a_sub a) (a_negate a)
(a_op a) (a_type a) (a_shift_t a) (a_shift_n a) (a_rotation a) (a_width a) (a_signed a) (a_with_link a)
(a_cond a) (a_pc_delta a) (a_memsize a) (a_index a) (a_add a) (a_wback a) (a_registers a) (a_enable a)
(a_affectPri a) (a_affectFault a) (a_SYSm a).
Definition with_t (v : Z) (a : attrs) : attrs :=
  mkattrs (a_d a) (a_n a) (a_m a) (Some v) (a_imm32 a) (a_setflags a) (a_use_carry a) (a_sub a) (a_negate a)
(a_op a) (a_type a) (a_shift_t a) (a_shift_n a) (a_rotation a) (a_width a) (a_signed a) (a_with_link a)
(a_cond a) (a_pc_delta a) (a_memsize a) (a_index a) (a_add a) (a_wback a) (a_registers a) (a_enable a)
(a_affectPri a) (a_affectFault a) (a_SYSm a).
Definition with_imm32 (v : bs) (a : attrs) : attrs :=
  mkattrs (a_d a) (a_n a) (a_m a) (a_t a) (Some v) (a_setflags a) (a_use_carry a) (a_sub a) (a_negate a)
(a_op a) (a_type a) (a_shift_t a) (a_shift_n a) (a_rotation a) (a_width a) (a_signed a) (a_with_link a)
(a_cond a) (a_pc_delta a) (a_memsize a) (a_index a) (a_add a) (a_wback a) (a_registers a) (a_enable a)
(a_affectPri a) (a_affectFault a) (a_SYSm a).
Definition with_setflags (v : setflags) (a : attrs) : attrs :=
  mkattrs (a_d a) (a_n a) (a_m a) (a_t a) (a_imm32 a) (Some v) (a_use_carry a) (a_sub a) (a_negate a) (a_op
a) (a_type a) (a_shift_t a) (a_shift_n a) (a_rotation a) (a_width a) (a_signed a) (a_with_link a) (a_cond a)
(a_pc_delta a) (a_memsize a) (a_index a) (a_add a) (a_wback a) (a_registers a) (a_enable a) (a_affectPri a)
(a_affectFault a) (a_SYSm a).
Definition with_use_carry (v : bool) (a : attrs) : attrs :=
  mkattrs (a_d a) (a_n a) (a_m a) (a_t a) (a_imm32 a) (a_setflags a) (Some v) (a_sub a) (a_negate a) (a_op a)
(a_type a) (a_shift_t a) (a_shift_n a) (a_rotation a) (a_width a) (a_signed a) (a_with_link a) (a_cond a)
(a_pc_delta a) (a_memsize a) (a_index a) (a_add a) (a_wback a) (a_registers a) (a_enable a) (a_affectPri a)
(a_affectFault a) (a_SYSm a).
Definition with_sub (v : bool) (a : attrs) : attrs :=
  mkattrs (a_d a) (a_n a) (a_m a) (a_t a) (a_imm32 a) (a_setflags a) (a_use_carry a) (Some v) (a_negate a)
(a_op a) (a_type a) (a_shift_t a) (a_shift_n a) (a_rotation a) (a_width a) (a_signed a) (a_with_link a)
(a_cond a) (a_pc_delta a) (a_memsize a) (a_index a) (a_add a) (a_wback a) (a_registers a) (a_enable a)
(a_affectPri a) (a_affectFault a) (a_SYSm a).
Definition with_negate (v : bool) (a : attrs) : attrs :=
  mkattrs (a_d a) (a_n a) (a_m a) (a_t a) (a_imm32 a) (a_setflags a) (a_use_carry a) (a_sub a) (Some v) (a_op
a) (a_type a) (a_shift_t a) (a_shift_n a) (a_rotation a) (a_width a) (a_signed a) (a_with_link a) (a_cond a)
(a_pc_delta a) (a_memsize a) (a_index a) (a_add a) (a_wback a) (a_registers a) (a_enable a) (a_affectPri a)
(a_affectFault a) (a_SYSm a).
Definition with_op (v : bitop) (a : attrs) : attrs :=
  mkattrs (a_d a) (a_n a) (a_m a) (a_t a) (a_imm32 a) (a_setflags a) (a_use_carry a) (a_sub a) (a_negate a)
(Some v) (a_type a) (a_shift_t a) (a_shift_n a) (a_rotation a) (a_width a) (a_signed a) (a_with_link a)
(a_cond a) (a_pc_delta a) (a_memsize a) (a_index a) (a_add a) (a_wback a) (a_registers a) (a_enable a)
(a_affectPri a) (a_affectFault a) (a_SYSm a).
Definition with_type (v : srtype) (a : attrs) : attrs :=
  mkattrs (a_d a) (a_n a) (a_m a) (a_t a) (a_imm32 a) (a_setflags a) (a_use_carry a) (a_sub a) (a_negate a)
(a_op a) (Some v) (a_shift_t a) (a_shift_n a) (a_rotation a) (a_width a) (a_signed a) (a_with_link a) (a_cond
a) (a_pc_delta a) (a_memsize a) (a_index a) (a_add a) (a_wback a) (a_registers a) (a_enable a) (a_affectPri
a) (a_affectFault a) (a_SYSm a).
Definition with_shift_t (v : srtype) (a : attrs) : attrs :=
  mkattrs (a_d a) (a_n a) (a_m a) (a_t a) (a_imm32 a) (a_setflags a) (a_use_carry a) (a_sub a) (a_negate a)
(a_op a) (a_type a) (Some v) (a_shift_n a) (a_rotation a) (a_width a) (a_signed a) (a_with_link a) (a_cond a)
(a_pc_delta a) (a_memsize a) (a_index a) (a_add a) (a_wback a) (a_registers a) (a_enable a) (a_affectPri a)
(a_affectFault a) (a_SYSm a).
Definition with_shift_n (v : Z) (a : attrs) : attrs :=
  mkattrs (a_d a) (a_n a) (a_m a) (a_t a) (a_imm32 a) (a_setflags a) (a_use_carry a) (a_sub a) (a_negate a)
(a_op a) (a_type a) (a_shift_t a) (Some v) (a_rotation a) (a_width a) (a_signed a) (a_with_link a) (a_cond a)
(a_pc_delta a) (a_memsize a) (a_index a) (a_add a) (a_wback a) (a_registers a) (a_enable a) (a_affectPri a)
(a_affectFault a) (a_SYSm a).
Definition with_rotation (v : Z) (a : attrs) : attrs :=
  mkattrs (a_d a) (a_n a) (a_m a) (a_t a) (a_imm32 a) (a_setflags a) (a_use_carry a) (a_sub a) (a_negate a)
(a_op a) (a_type a) (a_shift_t a) (a_shift_n a) (Some v) (a_width a) (a_signed a) (a_with_link a) (a_cond a)
(a_pc_delta a) (a_memsize a) (a_index a) (a_add a) (a_wback a) (a_registers a) (a_enable a) (a_affectPri a)
(a_affectFault a) (a_SYSm a).
Definition with_width (v : Z) (a : attrs) : attrs :=
  mkattrs (a_d a) (a_n a) (a_m a) (a_t a) (a_imm32 a) (a_setflags a) (a_use_carry a) (a_sub a) (a_negate a)
(a_op a) (a_type a) (a_shift_t a) (a_shift_n a) (a_rotation a) (Some v) (a_signed a) (a_with_link a) (a_cond
a) (a_pc_delta a) (a_memsize a) (a_index a) (a_add a) (a_wback a) (a_registers a) (a_enable a) (a_affectPri
a) (a_affectFault a) (a_SYSm a).
Definition with_signed (v : bool) (a : attrs) : attrs :=
  mkattrs (a_d a) (a_n a) (a_m a) (a_t a) (a_imm32 a) (a_setflags a) (a_use_carry a) (a_sub a) (a_negate a)
(a_op a) (a_type a) (a_shift_t a) (a_shift_n a) (a_rotation a) (a_width a) (Some v) (a_with_link a) (a_cond
a) (a_pc_delta a) (a_memsize a) (a_index a) (a_add a) (a_wback a) (a_registers a) (a_enable a) (a_affectPri
a) (a_affectFault a) (a_SYSm a).
Definition with_with_link (v : bool) (a : attrs) : attrs :=
  mkattrs (a_d a) (a_n a) (a_m a) (a_t a) (a_imm32 a) (a_setflags a) (a_use_carry a) (a_sub a) (a_negate a)
(a_op a) (a_type a) (a_shift_t a) (a_shift_n a) (a_rotation a) (a_width a) (a_signed a) (Some v) (a_cond a)
(a_pc_delta a) (a_memsize a) (a_index a) (a_add a) (a_wback a) (a_registers a) (a_enable a) (a_affectPri a)
(a_affectFault a) (a_SYSm a).
Definition with_cond (v : Z) (a : attrs) : attrs :=
  mkattrs (a_d a) (a_n a) (a_m a) (a_t a) (a_imm32 a) (a_setflags a) (a_use_carry a) (a_sub a) (a_negate a)
(a_op a) (a_type a) (a_shift_t a) (a_shift_n a) (a_rotation a) (a_width a) (a_signed a) (a_with_link a) (Some
v) (a_pc_delta a) (a_memsize a) (a_index a) (a_add a) (a_wback a) (a_registers a) (a_enable a) (a_affectPri
a) (a_affectFault a) (a_SYSm a).
Definition with_pc_delta (v : Z) (a : attrs) : attrs :=
  mkattrs (a_d a) (a_n a) (a_m a) (a_t a) (a_imm32 a) (a_setflags a) (a_use_carry a) (a_sub a) (a_negate a)
(a_op a) (a_type a) (a_shift_t a) (a_shift_n a) (a_rotation a) (a_width a) (a_signed a) (a_with_link a)
(a_cond a) (Some v) (a_memsize a) (a_index a) (a_add a) (a_wback a) (a_registers a) (a_enable a) (a_affectPri
a) (a_affectFault a) (a_SYSm a).
Definition with_memsize (v : Z) (a : attrs) : attrs :=
  mkattrs (a_d a) (a_n a) (a_m a) (a_t a) (a_imm32 a) (a_setflags a) (a_use_carry a) (a_sub a) (a_negate a)
(a_op a) (a_type a) (a_shift_t a) (a_shift_n a) (a_rotation a) (a_width a) (a_signed a) (a_with_link a)
(a_cond a) (a_pc_delta a) (Some v) (a_index a) (a_add a) (a_wback a) (a_registers a) (a_enable a)
(a_affectPri a) (a_affectFault a) (a_SYSm a).
Definition with_index (v : bool) (a : attrs) : attrs :=
  mkattrs (a_d a) (a_n a) (a_m a) (a_t a) (a_imm32 a) (a_setflags a) (a_use_carry a) (a_sub a) (a_negate a)
(a_op a) (a_type a) (a_shift_t a) (a_shift_n a) (a_rotation a) (a_width a) (a_signed a) (a_with_link a)
(a_cond a) (a_pc_delta a) (a_memsize a) (Some v) (a_add a) (a_wback a) (a_registers a) (a_enable a)
(a_affectPri a) (a_affectFault a) (a_SYSm a).
Definition with_add (v : bool) (a : attrs) : attrs :=
  mkattrs (a_d a) (a_n a) (a_m a) (a_t a) (a_imm32 a) (a_setflags a) (a_use_carry a) (a_sub a) (a_negate a)
(a_op a) (a_type a) (a_shift_t a) (a_shift_n a) (a_rotation a) (a_width a) (a_signed a) (a_with_link a)
(a_cond a) (a_pc_delta a) (a_memsize a) (a_index a) (Some v) (a_wback a) (a_registers a) (a_enable a)
(a_affectPri a) (a_affectFault a) (a_SYSm a).
Definition with_wback (v : bool) (a : attrs) : attrs :=
  mkattrs (a_d a) (a_n a) (a_m a) (a_t a) (a_imm32 a) (a_setflags a) (a_use_carry a) (a_sub a) (a_negate a)
(a_op a) (a_type a) (a_shift_t a) (a_shift_n a) (a_rotation a) (a_width a) (a_signed a) (a_with_link a)
(a_cond a) (a_pc_delta a) (a_memsize a) (a_index a) (a_add a) (Some v) (a_registers a) (a_enable a)
(a_affectPri a) (a_affectFault a) (a_SYSm a).
Definition with_registers (v : bs) (a : attrs) : attrs :=
  mkattrs (a_d a) (a_n a) (a_m a) (a_t a) (a_imm32 a) (a_setflags a) (a_use_carry a) (a_sub a) (a_negate a)
(a_op a) (a_type a) (a_shift_t a) (a_shift_n a) (a_rotation a) (a_width a) (a_signed a) (a_with_link a)
(a_cond a) (a_pc_delta a) (a_memsize a) (a_index a) (a_add a) (a_wback a) (Some v) (a_enable a) (a_affectPri
a) (a_affectFault a) (a_SYSm a).
Definition with_enable (v : bool) (a : attrs) : attrs :=
  mkattrs (a_d a) (a_n a) (a_m a) (a_t a) (a_imm32 a) (a_setflags a) (a_use_carry a) (a_sub a) (a_negate a)
(a_op a) (a_type a) (a_shift_t a) (a_shift_n a) (a_rotation a) (a_width a) (a_signed a) (a_with_link a)
(a_cond a) (a_pc_delta a) (a_memsize a) (a_index a) (a_add a) (a_wback a) (a_registers a) (Some v)
(a_affectPri a) (a_affectFault a) (a_SYSm a).
Definition with_affectPri (v : bool) (a : attrs) : attrs :=
  mkattrs (a_d a) (a_n a) (a_m a) (a_t a) (a_imm32 a) (a_setflags a) (a_use_carry a) (a_sub a) (a_negate a)
(a_op a) (a_type a) (a_shift_t a) (a_shift_n a) (a_rotation a) (a_width a) (a_signed a) (a_with_link a)
(a_cond a) (a_pc_delta a) (a_memsize a) (a_index a) (a_add a) (a_wback a) (a_registers a) (a_enable a) (Some
v) (a_affectFault a) (a_SYSm a).
Definition with_affectFault (v : bool) (a : attrs) : attrs :=
  mkattrs (a_d a) (a_n a) (a_m a) (a_t a) (a_imm32 a) (a_setflags a) (a_use_carry a) (a_sub a) (a_negate a)
(a_op a) (a_type a) (a_shift_t a) (a_shift_n a) (a_rotation a) (a_width a) (a_signed a) (a_with_link a)
(a_cond a) (a_pc_delta a) (a_memsize a) (a_index a) (a_add a) (a_wback a) (a_registers a) (a_enable a)
(a_affectPri a) (Some v) (a_SYSm a).
Definition with_SYSm (v : bs) (a : attrs) : attrs :=
  mkattrs (a_d a) (a_n a) (a_m a) (a_t a) (a_imm32 a) (a_setflags a) (a_use_carry a) (a_sub a) (a_negate a)
(a_op a) (a_type a) (a_shift_t a) (a_shift_n a) (a_rotation a) (a_width a) (a_signed a) (a_with_link a)
(a_cond a) (a_pc_delta a) (a_memsize a) (a_index a) (a_add a) (a_wback a) (a_registers a) (a_enable a)
(a_affectPri a) (a_affectFault a) (Some v).

(** decoder.py:28-34 *)
Record insn := mkinsn {
  i_mnemonic : string;
  i_word : Z;
  i_is32 : bool;
  i_address : Z;
  i_klass : klass;
  i_operands : list operand;
  i_attrs : attrs }.

Definition set_operands (l : list operand) (i : insn) : insn :=
  mkinsn (i_mnemonic i) (i_word i) (i_is32 i) (i_address i) (i_klass i) l (i_attrs i).
Definition set_mnemonic (s : string) (i : insn) : insn :=
  mkinsn s (i_word i) (i_is32 i) (i_address i) (i_klass i) (i_operands i) (i_attrs i).
Definition set_address (a : Z) (i : insn) : insn :=
  mkinsn (i_mnemonic i) (i_word i) (i_is32 i) a (i_klass i) (i_operands i) (i_attrs i).
Definition set_attrs (f : attrs -> attrs) (i : insn) : insn :=
  mkinsn (i_mnemonic i) (i_word i) (i_is32 i) (i_address i) (i_klass i) (i_operands i) (f (i_attrs i)).

(** decoder.py:40-42 *)
Definition i_size (i : insn) : Z := if i_is32 i then 4 else 2.

(** decoder.py:52-54 *)
Definition i_bytes (i : insn) : list Z :=
  map (fun k => Z.land (Z.shiftr (i_word i) (8 * k)) 255) (py_range (i_size i)).

(** Attributes assigned by the constructors: instructions.py:37-39 (data
    processing), 61-64, 356-358, 448-450, 552-556, 614-617, 637-640, 714-716. *)
Definition klass_attrs (k : klass) : attrs :=
  match k with
  | AddSub => with_sub false (with_use_carry false (with_setflags Never no_attrs))
  | BitOp | BitClear | ShiftOp | ReverseSubtract | Multiply | Extend | ShiftedMoveNegate =>
      with_setflags Never no_attrs
  | Move => with_negate false (with_setflags Never no_attrs)
  | Compare => with_negate true no_attrs
  | Branch => with_pc_delta 0 (with_cond 15 (with_with_link false no_attrs))
  | Load | Store => with_signed false (with_memsize 32 no_attrs)
  | LoadLiteral => with_add true (with_signed false (with_memsize 32 no_attrs))
  | _ => no_attrs
  end.

(** [klass(mnemonic, word, is32bit)] *)
Definition new_insn (k : klass) (mnemonic : string) (word : Z) (is32 : bool) : insn :=
  mkinsn mnemonic word is32 0 k [] (klass_attrs k).

(** Keyword arguments of [@instr] used in instructions.py. *)
Inductive kwarg :=
| KwOp (v : bitop) | KwType (v : srtype) | KwUseCarry (v : bool) | KwSub (v : bool)
| KwAdd (v : bool) | KwWidth (v : Z) | KwSigned (v : bool) | KwNegate (v : bool)
| KwMemsize (v : Z).

(** decoder.py:232-233, one [setattr] *)
Definition set_kwarg (a : attrs) (k : kwarg) : attrs :=
  match k with
  | KwOp v => with_op v a
  | KwType v => with_type v a
  | KwUseCarry v => with_use_carry v a
  | KwSub v => with_sub v a
  | KwAdd v => with_add v a
  | KwWidth v => with_width v a
  | KwSigned v => with_signed v a
  | KwNegate v => with_negate v a
  | KwMemsize v => with_memsize v a
  end.
