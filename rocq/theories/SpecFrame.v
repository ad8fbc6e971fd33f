(** * Vocabulary for statements about what an instruction changes and what it depends on *)
From Verif Require Import BitstringModel CpuModel SpecCpu InsnModel ExecModel SpecExec SpecWhole.
Local Open Scope bool_scope.
Local Open Scope Z_scope.

(** What is stored for register [k]; [None]: there is no such register. *)
Definition content (c : cpu) (k : Z) : option Z := reg_get (c_regs c) (Some k).

(** Register [k] is the one in the operand; a write to it stores into register [k]. *)
Definition is_reg (o : option Z) (k : Z) : bool := match o with Some r => k =? r | None => false end.
Definition into (o : option Z) (k : Z) : bool := match o with Some r => written r k | None => false end.
Definition has {A} (o : option A) : bool := match o with Some _ => true | None => false end.
(** Some register of the list (below the pc) is register [k]; storing into the registers of
    the list stores into register [k]. *)
Definition in_list (py : pyver) (o : option bs) (k : Z) : bool :=
  match o with Some l => existsb (fun r => is_listed py (bv l) r && (k =? r)) (py_range 15) | None => false end.
Definition into_list (py : pyver) (o : option bs) (k : Z) : bool :=
  match o with Some l => existsb (fun r => is_listed py (bv l) r && written r k) (py_range 15) | None => false end.
(** The instruction sets flags. *)
Definition sets_flags (i : insn) : bool := match a_setflags (i_attrs i) with Some sf => sets sf | None => false end.

(** The registers other than the pc that the instruction names as destinations; number 16
    holds the flags, and the stack pointer is also number 17. *)
Definition changes (py : pyver) (i : insn) (k : Z) : bool :=
  let a := i_attrs i in
  match i_klass i with
  | AddSub | BitOp | BitClear | ShiftOp | ReverseSubtract | Multiply | Move => into (a_d a) k || (k =? 16) && sets_flags i
  | AddressToRegister | Extend | ByteReverse | MoveFromSpecial => into (a_d a) k
  | Compare | Test => k =? 16
  | Branch => (k =? 14) && wants (a_with_link a)
  | Load => into (a_t a) k || wants (a_wback a) && into (a_n a) k
  | LoadLiteral => into (a_t a) k
  | LoadMultiple => into_list py (a_registers a) k || wants (a_wback a) && into (a_n a) k
  | StoreMultiple => wants (a_wback a) && into (a_n a) k
  | Push => written 13 k
  | Pop => written 13 k || into_list py (a_registers a) k
  | ChangeProcessorState => (k =? -1) && wants (a_affectPri a) || (k =? -3) && wants (a_affectFault a)
  | Store | Instruction | MoveToSpecial | ShiftedMoveNegate => false
  end.
(** The instructions that write memory. *)
Definition stores_memory (k : klass) : bool := match k with Store | Push | StoreMultiple => true | _ => false end.
(** The instructions that read or write memory. *)
Definition touches_memory (k : klass) : bool :=
  match k with Load | LoadLiteral | LoadMultiple | Pop => true | _ => stores_memory k end.

(** The registers on whose contents the effect depends.  The pc is one of them only if it
    is an operand or the address is relative to it; moving on to the next instruction does
    not count. *)
Definition offset_uses (a : attrs) (k : Z) : bool :=
  negb (has (a_imm32 a)) &&
  (is_reg (a_m a) k || (k =? 16) && match a_shift_t a with Some SR_RRX => true | _ => false end).
Definition uses (py : pyver) (i : insn) (k : Z) : bool :=
  let a := i_attrs i in
  let flags := (k =? 16) && sets_flags i in
  match i_klass i with
  | AddSub => is_reg (a_n a) k || negb (has (a_imm32 a)) && is_reg (a_m a) k || flags || (k =? 16) && wants (a_use_carry a)
  | BitOp | BitClear | Multiply => is_reg (a_n a) k || is_reg (a_m a) k || flags
  | ShiftOp => is_reg (a_n a) k || negb (has (a_shift_n a)) && is_reg (a_m a) k || flags ||
               (k =? 16) && match a_type a with Some SR_RRX => true | _ => false end
  | ReverseSubtract => is_reg (a_n a) k || flags
  | AddressToRegister | LoadLiteral => k =? 15
  | Extend | ByteReverse => is_reg (a_m a) k
  | Move => is_reg (a_m a) k || flags
  | Compare | Test => is_reg (a_n a) k || is_reg (a_m a) k || (k =? 16)
  | Branch => (k =? 15) || is_reg (a_m a) k || (k =? 16) && match a_cond a with Some n => n <? 14 | None => false end
  | Load => is_reg (a_n a) k || offset_uses a k
  | Store => is_reg (a_n a) k || offset_uses a k || is_reg (a_t a) k
  | LoadMultiple => is_reg (a_n a) k
  | StoreMultiple => is_reg (a_n a) k || in_list py (a_registers a) k
  | Push => (k =? 13) || in_list py (a_registers a) k
  | Pop => k =? 13
  | MoveFromSpecial => (k =? 16) || (k =? 17) || (k =? 18) || (-4 <=? k) && (k <=? -1)
  | ChangeProcessorState | Instruction | MoveToSpecial | ShiftedMoveNegate => false
  end.

(** Register [k] of two machines that were [c1] and [c2] and are [c1'] and [c2']: it has been
    left alone in both, or has the same content in both, or is the pc and has been moved on by
    the same number of bytes in both. *)
Definition same_effect (n : Z) (c1 c2 c1' c2' : cpu) (k : Z) : Prop :=
  content c1' k = content c1 k /\ content c2' k = content c2 k \/
  content c1' k = content c2' k \/
  k = 15 /\ content c1' k = Some (wrap (reg c1 15 + n)) /\ content c2' k = Some (wrap (reg c2 15 + n)).

(** The two instructions have no register in common that one of them changes, neither
    needs the pc, and if one writes memory the other does not touch it. *)
Definition independent (py : pyver) (i j : insn) : Prop :=
  (forall k, changes py i k = true -> changes py j k = false /\ uses py j k = false) /\
  (forall k, changes py j k = true -> changes py i k = false /\ uses py i k = false) /\
  uses py i 15 = false /\ uses py j 15 = false /\
  (stores_memory (i_klass i) = true -> touches_memory (i_klass j) = false) /\
  (stores_memory (i_klass j) = true -> touches_memory (i_klass i) = false).
