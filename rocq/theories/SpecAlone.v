(** * Vocabulary for the statements about instructions executed without a delegate *)
From Verif Require Import BitstringModel SpecBits InsnModel ExecModel SpecExec SpecWhole AloneModel SpecIsa.
Local Open Scope bool_scope.
Local Open Scope Z_scope.

(** The object with its immediate, if it has one, complemented. *)
Definition complemented (i : insn) : insn :=
  match a_imm32 (i_attrs i) with Some b => with_imm i (2 ^ 32 - 1 - bv b) | None => i end.
(** The object after it was executed: a subtraction and a comparison have complemented their
    immediate, a move from the pc has lost its wish to set flags. *)
Definition left_as (i : insn) : insn :=
  let a := i_attrs i in
  match i_klass i with
  | AddSub => if wants (a_sub a) then complemented i else i
  | Compare => if wants (a_negate a) then complemented i else i
  | Move => if is_pc (a_m a) then set_attrs (with_setflags Never) i else i
  | _ => i
  end.
Definition with_immediate (i : insn) : bool := match a_imm32 (i_attrs i) with Some _ => true | None => false end.
(** The exception: AttributeError where None is asked for an attribute, NameError for the shifted
    mvn, TypeError for all else. *)
Definition raised (i : insn) : exc :=
  let a := i_attrs i in
  match i_klass i with
  | Multiply => AttributeError
  | ShiftedMoveNegate => NameError
  | AddSub => if wants (a_use_carry a) || wants (a_sub a) && negb (with_immediate i) then TypeError else AttributeError
  | Compare => if wants (a_negate a) && negb (with_immediate i) then TypeError else AttributeError
  | Load => if with_immediate i then AttributeError else TypeError
  | Extend => match a_rotation a with Some 0 => TypeError | _ => AttributeError end
  | _ => TypeError
  end.
(** Multiple loads of the pc alone that write nothing back: the one kind of object that can be
    executed without a delegate, on Python 2. *)
Definition pc_only (i : insn) : Prop :=
  exists n wb, gpr n /\ is_insn i LoadMultiple [N n; Regs (2 ^ 15); Wb wb] /\ (wb = true -> n = 15).
(** The object without its immediate and its wish to set flags. *)
Definition bare (i : insn) : insn := set_attrs (fun a => with_imm32 bit0 (with_setflags Never a)) i.
Definition changes_itself (k : klass) : bool := match k with AddSub | Compare | Move => true | _ => false end.
(** Reading special register [y] asks the CPU for something: the status registers except EPSR, the
    stack pointers, the masks and CONTROL. *)
Definition asks (y : Z) : bool :=
  match y / 8 with
  | 0 => Z.testbit y 0 || negb (Z.testbit y 2)
  | 1 => true
  | 2 => y mod 8 <? 5
  | _ => false
  end.
