(** Property statements; each is proved in ExecMiscThms.v under the same name.
    Written by tools/genprops.py. *)
From Coq Require Import Lia ZifyBool.
From Verif Require Import BitstringModel SpecBits BitFacts BitOps BitMisc BitThms HelpersModel SpecArm HelpFacts CpuModel SpecCpu
  CpuFacts CpuThms InsnModel ExecModel SpecExec ExecFacts ExecDataThms ExecArithThms ExecMiscThms SpecIsa.
Local Open Scope bool_scope.
Local Open Scope Z_scope.

(** C54: hints, barriers, bkpt, svc, udf -- and msr -- only move the pc.  That msr does not write
    the special register is refuted below. *)
Theorem C54_hint : forall py c i k, regs_ok c -> k = Instruction \/ k = MoveToSpecial -> i_klass i = k ->
  runs py c i (advance (reg c) (i_size i)) i.
Proof. exact C54_hint_proof. Qed.
Print Assumptions C54_hint.

Example C54_hint_ex :
  let i := an_insn Instruction [Imm 3] false in
  cpu_ok ex_state /\
  reg_after Py2 ex_state i 15 = 36 /\
  reg_after Py2 ex_state i 0 = 7.
Proof. split; [exact ex_state_ok|]. vm_compute. repeat split; reflexivity. Qed.

(** C54, cps: exactly the selected masks. *)
Theorem C54_cps : forall py c i en pri flt, regs_ok c ->
  is_insn i ChangeProcessorState [En en; Pri pri; Flt flt] ->
  let v := if en then 0 else 1 in
  let f1 := if pri then set (reg c) (-1) v else reg c in
  let f2 := if flt then set f1 (-3) v else f1 in
  runs py c i (advance f2 (i_size i)) i.
Proof. exact C54_cps_proof. Qed.
Print Assumptions C54_cps.

Example C54_cps_ex :
  let i := an_insn ChangeProcessorState [En false; Pri true; Flt false] false in
  cpu_ok ex_state /\
  reg_after Py2 ex_state i (-1) = 1 /\
  reg_after Py2 ex_state i (-3) = 0 /\
  reg_after Py2 ex_state i 15 = 36.
Proof. split; [exact ex_state_ok|]. vm_compute. repeat split; reflexivity. Qed.

(** C47: when the condition does not hold the pc moves to the next instruction. *)
Theorem C47_not_taken : forall py c i l k, regs_ok c -> 0 <= k <= 15 ->
  i_klass i = Branch -> i_attrs i = attributes l -> In (Cond k) l -> a_cond (attributes l) = Some k ->
  holds_in k (reg c 16) = false -> runs py c i (advance (reg c) (i_size i)) i.
Proof. exact C47_not_taken_proof. Qed.
Print Assumptions C47_not_taken.

Example C47_not_taken_ex :
  let i := an_insn Branch [Link false; Cond 0; Delta 0; Imm 100] false in
  cpu_ok ex_state /\
  reg_after Py2 ex_state i 15 = 36.
Proof. split; [exact ex_state_ok|]. vm_compute. repeat split; reflexivity. Qed.

(** C47, bx and blx.  For blx lr the target is read after lr was overwritten. *)
Theorem C47_register : forall py c i m link k delta, regs_ok c -> gpr m -> 0 <= k <= 15 ->
  is_insn i Branch [M m; Link link; Cond k; Delta delta] ->
  let f := linked link (reg c) delta in
  runs py c i (if holds_in k (reg c 16) then set f 15 (f m - f m mod 2) else advance (reg c) (i_size i)) i.
Proof. exact C47_register_proof. Qed.
Print Assumptions C47_register.

Example C47_register_ex :
  let i := an_insn Branch [M 3; Link true; Cond 14; Delta (-2)] false in
  cpu_ok ex_state /\
  reg_after Py2 ex_state i 15 = 16 /\
  reg_after Py2 ex_state i 14 = 37.
Proof. split; [exact ex_state_ok|]. vm_compute. repeat split; reflexivity. Qed.

(** C47, b and bl as the object stands: the immediate is added to pc + 4.  For backward
    branches the decoder leaves another number in the object (C47_backward_refuted). *)
Theorem C47_immediate : forall py c i v link k delta, regs_ok c -> word v -> 0 <= k <= 15 ->
  is_insn i Branch [Link link; Cond k; Delta delta; Imm v] ->
  runs py c i (if holds_in k (reg c 16) then set (linked link (reg c) delta) 15 (wrap (reg c 15 + 4 + delta + v))
               else advance (reg c) (i_size i)) i.
Proof. exact C47_immediate_proof. Qed.
Print Assumptions C47_immediate.

Example C47_immediate_ex :
  let i := an_insn Branch [Link true; Cond 14; Delta 0; Imm 0xfffffff0] true in
  cpu_ok ex_state /\
  reg_after Py2 ex_state i 15 = 22 /\
  reg_after Py2 ex_state i 14 = 39.
Proof. split; [exact ex_state_ok|]. vm_compute. repeat split; reflexivity. Qed.

(** C51, rev, rev16, revsh. *)
Theorem C51_byte_reverse : forall py c i d m w sgn, regs_ok c -> gpr d -> gpr m -> w = 4 \/ w = 2 ->
  is_insn i ByteReverse [D d; M m; Wid w; Sgn sgn] ->
  let r := byte_reversed w sgn (reg c m) in
  runs py c i (advance (set (reg c) d r) (i_size i)) i.
Proof. exact C51_byte_reverse_proof. Qed.
Print Assumptions C51_byte_reverse.

Example C51_byte_reverse_ex :
  let i := an_insn ByteReverse [D 0; M 4; Wid 4; Sgn false] false in
  cpu_ok ex_state /\
  reg_after Py2 ex_state i 0 = 0x78563412.
Proof. split; [exact ex_state_ok|]. vm_compute. repeat split; reflexivity. Qed.

(** C54, mrs: the named register, as far as the code reads it.  The TypeError of the registers
    holding the flags, and the 6-bit ipsr, are what the code does, not what is claimed. *)
Theorem C54_mrs_partial : forall py c i d y, regs_ok c -> gpr d -> special y = true ->
  is_insn i MoveFromSpecial [D d; Sys y] ->
  match special_read (reg c) y with
  | Some r => runs py c i (advance (set (reg c) d r) (i_size i)) i
  | None => execute py c i = (mkst c i, Err TypeError)
  end.
Proof. exact C54_mrs_partial_proof. Qed.
Print Assumptions C54_mrs_partial.

Example C54_mrs_partial_ex :
  let i := an_insn MoveFromSpecial [D 0; Sys 8] true in
  cpu_ok ex_state /\
  reg_after Py2 ex_state i 0 = 48 /\
  reg_after Py2 ex_state i 15 = 38.
Proof. split; [exact ex_state_ok|]. vm_compute. repeat split; reflexivity. Qed.
