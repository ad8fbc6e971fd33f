(** Property statements; each is proved in ExecRefThms.v under the same name.
    Written by tools/genprops.py. *)
From Coq Require Import Lia.
From Verif Require Import BitstringModel SpecBits SpecArm CpuModel SpecCpu InsnModel TableModel ExecModel SpecExec ExecFacts SpecIsa SpecWhole ExecRefThms.

(** C42: addition and subtraction are right when the result is not negative as a signed
number: destination, N, Z, C and V. Missing: the other half of the results (see
C42_refuted); what is stored for them is in C42_register_partial. *)
Theorem C42_nonnegative_partial : forall py c i d n m v sf uc sub, regs_ok c -> gpr d -> gpr n -> gpr m -> word v ->
  let x := reg c 16 in let a := reg c n in
  (let b := operand2 sub (reg c m) in let ci := carry_in sub uc x in let r := (a + b + ci) mod 2 ^ 32 in
   r < 2 ^ 31 -> is_insn i AddSub [D d; N n; M m; Flags sf; Carry uc; Sub sub] ->
   runs py c i (advance (set_result sf (set (reg c) d r) r (Some (carry_of a b ci)) (Some (overflow_of a b ci))) (i_size i)) i) /\
  (let b := operand2 sub v in let ci := carry_in sub uc x in let r := (a + b + ci) mod 2 ^ 32 in
   r < 2 ^ 31 -> v < 2 ^ 31 -> is_insn i AddSub [D d; N n; Flags sf; Imm v; Carry uc; Sub sub] ->
   runs py c i (advance (set_result sf (set (reg c) d r) r (Some (carry_of a b ci)) (Some (overflow_of a b ci))) (i_size i)) i) /\
  (let b := operand2 true a in let r := (v - a) mod 2 ^ 32 in
   r < 2 ^ 31 -> v < 2 ^ 31 -> is_insn i ReverseSubtract [D d; N n; Flags sf; Imm v] ->
   runs py c i (advance (set_result sf (set (reg c) d r) r (Some (carry_of b v 1)) (Some (overflow_of b v 1))) (i_size i)) i).
Proof. exact C42_nonnegative_partial_proof. Qed.
Print Assumptions C42_nonnegative_partial.

Example C42_nonnegative_partial_ex : exists i, decode_bytes Py2 [229; 31] 34 = Ok i /\
  is_insn i AddSub [D 5; N 4; Flags NotInITBlock; Imm 7; Carry false; Sub true] /\
  (reg ex_state 4 + operand2 true 7 + carry_in true false (reg ex_state 16)) mod 2 ^ 32 = 305419889 /\ 305419889 < 2 ^ 31 /\
  reg_after Py2 ex_state i 5 = 305419889.
Proof. eexists. split; [vm_compute; reflexivity|]. split; [split; vm_compute; reflexivity|]. vm_compute. repeat split; reflexivity. Qed.

(** C42: refuted: adds r0, r0, r1 with r0 = 0x80000000 and r1 = 0 stores 0x7fffffff and
clears N; with r0 = 0xffffffff it stores 0 and sets Z. *)
Theorem C42_refuted : exists i c c', from_bytes Py2 i /\ is_insn i AddSub [D 0; N 0; M 1; Flags NotInITBlock; Carry false; Sub false] /\
  cpu_ok c /\ reg c 0 = 2 ^ 31 /\ reg c 1 = 0 /\ reg_after Py2 c i 0 = 2 ^ 31 - 1 /\ flag_N (xpsr_after Py2 c i) = false /\
  cpu_ok c' /\ reg c' 0 = 2 ^ 32 - 1 /\ reg c' 1 = 0 /\ reg_after Py2 c' i 0 = 0 /\ flag_Z (xpsr_after Py2 c' i) = true.
Proof. exact C42_refuted_proof. Qed.
Print Assumptions C42_refuted.

(** C45: every mvn.w with a shifted register raises NameError and does nothing. *)
Theorem C45_shifted_refuted : exists i, from_bytes Py2 i /\ i_klass i = ShiftedMoveNegate /\
  forall py c, execute py c i = (mkst c i, Err NameError).
Proof. exact C45_shifted_refuted_proof. Qed.
Print Assumptions C45_shifted_refuted.

(** C46: after cmp (register or immediate) cs and cc mean the unsigned comparison always;
eq, ne, hi and ls mean theirs unless a - b is 0xffffffff modulo 2^32; ge, lt, gt and le mean
theirs when a - b modulo 2^32 is below 2^31. Missing: the remaining cases, where the code
is wrong (C46_refuted). *)
Theorem C46_conditions_partial : forall py c i n b, regs_ok c -> gpr n ->
  (exists m, gpr m /\ is_insn i Compare [N n; M m; Neg true] /\ b = reg c m) \/ (word b /\ is_insn i Compare [N n; Imm b; Neg true]) ->
  let a := reg c n in let s := (a - b) mod 2 ^ 32 in let x := xpsr_after py c i in
  snd (execute py c i) = Ok tt /\
  (forall k, k = 2 \/ k = 3 -> holds_in k x = compares k a b) /\
  (s <> 2 ^ 32 - 1 -> forall k, k = 0 \/ k = 1 \/ k = 8 \/ k = 9 -> holds_in k x = compares k a b) /\
  (s < 2 ^ 31 -> forall k, 10 <= k <= 15 -> holds_in k x = compares k a b).
Proof. exact C46_conditions_partial_proof. Qed.
Print Assumptions C46_conditions_partial.

Example C46_conditions_partial_ex : exists i, decode_bytes Py2 [17; 43] 34 = Ok i /\ is_insn i Compare [N 3; Imm 17; Neg true] /\
  (reg ex_state 3 - 17) mod 2 ^ 32 = 4294967295 /\ (reg ex_state 4 - 17) mod 2 ^ 32 < 2 ^ 31 /\ holds_in 2 (xpsr_after Py2 ex_state i) = false.
Proof. eexists. split; [vm_compute; reflexivity|]. split; [split; vm_compute; reflexivity|]. vm_compute. repeat split; reflexivity. Qed.

(** C46: refuted: after cmp r0, #1 with r0 = 0 the condition eq holds and lt does not. *)
Theorem C46_refuted : exists i c, from_bytes Py2 i /\ is_insn i Compare [N 0; Imm 1; Neg true] /\ cpu_ok c /\ reg c 0 = 0 /\
  holds_in 0 (xpsr_after Py2 c i) = true /\ holds_in 11 (xpsr_after Py2 c i) = false.
Proof. exact C46_refuted_proof. Qed.
Print Assumptions C46_refuted.

(** C47: a decoded branch to a label, taken, goes to pc + 4 + offset, for forward offsets;
for a backward offset it goes to pc + 4 + (-1 - offset). The offset is the one the object
shows as its operand. Missing: backward branches (C47_backward_refuted). *)
Theorem C47_label_partial : forall py c i off k, regs_ok c -> from_bytes py i -> i_klass i = Branch -> i_operands i = [LabelOp off] ->
  a_cond (i_attrs i) = Some k -> holds_in k (reg c 16) = true ->
  snd (execute py c i) = Ok tt /\ reg_after py c i 15 = (reg c 15 + 4 + (if 0 <=? off then off else -1 - off)) mod 2 ^ 32.
Proof. exact C47_label_partial_proof. Qed.
Print Assumptions C47_label_partial.

Example C47_label_partial_ex : exists i, decode_bytes Py2 [16; 208] 34 = Ok i /\ i_klass i = Branch /\ i_operands i = [LabelOp 32] /\ i_mnemonic i = "beq"%string /\
  let c := do_cops ex_state [CopFlag FZ (VInt 1)] in holds_in 0 (reg c 16) = true /\ reg_after Py2 c i 15 = 70.
Proof. eexists. split; [vm_compute; reflexivity|]. vm_compute. repeat split; reflexivity. Qed.

(** C47: refuted: the branch to itself, shown with offset -4, goes seven bytes forward. *)
Theorem C47_backward_refuted : exists i c, from_bytes Py2 i /\ i_operands i = [LabelOp (-4)] /\ cpu_ok c /\
  reg_after Py2 c i 15 = reg c 15 + 7.
Proof. exact C47_backward_refuted_proof. Qed.
Print Assumptions C47_backward_refuted.

(** C47: refuted: blx lr goes to the return address it has just written to lr. *)
Theorem C47_blx_lr_refuted : exists i c, from_bytes Py2 i /\ i_mnemonic i = "blx"%string /\ i_operands i = [R 14] /\ cpu_ok c /\
  reg c 14 = 101 /\ reg c 15 = 34 /\ reg_after Py2 c i 15 = 36.
Proof. exact C47_blx_lr_refuted_proof. Qed.
Print Assumptions C47_blx_lr_refuted.

(** C48: every decoded load and store uses base plus or minus offset as address and asks
for no write-back. *)
Theorem C48_no_write_back : forall py i, from_bytes py i -> i_klass i = Load \/ i_klass i = Store ->
  a_index (i_attrs i) = Some true /\ a_wback (i_attrs i) = Some false.
Proof. exact C48_no_write_back_proof. Qed.
Print Assumptions C48_no_write_back.

Example C48_no_write_back_ex : exists i, decode_bytes Py2 [24; 104] 34 = Ok i /\ i_klass i = Load.
Proof. eexists. split; vm_compute; reflexivity. Qed.

(** C49: refuted on Python 3: after push {r0} and pop {r0} the stack pointer has moved by 4
and the pc has been read from memory. *)
Theorem C49_python3_refuted : exists i j c, from_bytes Py3 i /\ from_bytes Py3 j /\ is_insn i Push [Regs 1] /\ is_insn j Pop [Regs 1] /\ cpu_ok c /\
  let c1 := s_cpu (fst (execute Py3 c i)) in let c2 := s_cpu (fst (execute Py3 c1 j)) in
  snd (execute Py3 c i) = Ok tt /\ snd (execute Py3 c1 j) = Ok tt /\ reg c2 13 = reg c 13 - 4 /\ reg c2 15 = 0.
Proof. exact C49_python3_refuted_proof. Qed.
Print Assumptions C49_python3_refuted.

(** C50: refuted on Python 3: stm r0!, {r1} stores fifteen words and moves r0 on by 60. *)
Theorem C50_python3_refuted : exists i c, from_bytes Py3 i /\ is_insn i StoreMultiple [N 0; Regs 2; Wb true] /\ cpu_ok c /\ reg c 0 = 0 /\
  reg_after Py3 c i 0 = 60 /\ reg c 4 = 305419896 /\ mem_after Py3 c i 16 = Some 120.
Proof. exact C50_python3_refuted_proof. Qed.
Print Assumptions C50_python3_refuted.

(** C54: refuted: msr primask, r0 with r0 = 1 leaves primask 0; mrs r0, apsr raises TypeError;
mrs r0, ipsr in exception 64 gives 0. *)
Theorem C54_refuted : exists i j k c c', from_bytes Py2 i /\ from_bytes Py2 j /\ from_bytes Py2 k /\ cpu_ok c /\ cpu_ok c' /\
  is_insn i MoveToSpecial [N 0; Sys 16] /\ is_insn j MoveFromSpecial [D 0; Sys 0] /\ is_insn k MoveFromSpecial [D 0; Sys 5] /\
  reg c 0 = 1 /\ reg_after Py2 c i (-1) = 0 /\ snd (execute Py2 c j) = Err TypeError /\ reg c' 16 = 64 /\ reg_after Py2 c' k 0 = 0.
Proof. exact C54_refuted_proof. Qed.
Print Assumptions C54_refuted.
