(** * Vocabulary for statements about where execution goes *)
From Verif Require Import InsnModel CpuModel SpecCpu ExecModel SpecIsa SpecExec SpecWhole.
Local Open Scope Z_scope.

(** An instruction that does not name the pc as a destination and does not branch to the
    address in a register. *)
Definition ahead (py : pyver) (i : insn) : Prop :=
  names_pc py i = false \/ i_klass i = Branch /\ exists off, i_operands i = [LabelOp off].

(** Decoded instructions of this kind executed one after the other, with the pc before each. *)
Inductive walks (py : pyver) : cpu -> list Z -> cpu -> Prop :=
| walk_none c : walks py c [] c
| walk_step c i s pcs c' : from_bytes py i -> ahead py i -> execute py c i = (s, Ok tt) -> walks py (s_cpu s) pcs c' ->
    walks py c (reg c 15 :: pcs) c'.
