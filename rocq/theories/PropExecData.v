(** Property statements; each is proved in ExecDataThms.v under the same name.
    Written by tools/genprops.py. *)
From Coq Require Import Lia ZifyBool.
From Verif Require Import BitstringModel SpecBits BitFacts BitOps BitMisc BitThms HelpersModel SpecArm HelpFacts CpuModel SpecCpu
  CpuFacts CpuThms InsnModel ExecModel SpecExec ExecFacts ExecDataThms SpecIsa.
Local Open Scope bool_scope.
Local Open Scope Z_scope.

(** C43, and/eor/orr: the destination, N and Z (C and V kept), the pc, nothing else. *)
Theorem C43_bitop : forall py c i d n m op sf, regs_ok c -> gpr d -> gpr n -> gpr m ->
  is_insn i BitOp [D d; N n; M m; Op op; Flags sf] ->
  let r := bit_result op (reg c n) (reg c m) in
  runs py c i (advance (set_result sf (set (reg c) d r) r None None) (i_size i)) i.
Proof. exact C43_bitop_proof. Qed.
Print Assumptions C43_bitop.

Example C43_bitop_ex :
  let i := an_insn BitOp [D 0; N 1; M 4; Op OpAnd; Flags Always] false in
  cpu_ok ex_state /\
  reg_after Py2 ex_state i 0 = 0 /\
  reg_after Py2 ex_state i 15 = 36 /\
  flag_Z (reg_after Py2 ex_state i 16) = true /\
  flag_C (reg_after Py2 ex_state i 16) = true.
Proof. split; [exact ex_state_ok|]. vm_compute. repeat split; reflexivity. Qed.

(** C43, bic. *)
Theorem C43_bic : forall py c i d n m sf, regs_ok c -> gpr d -> gpr n -> gpr m ->
  is_insn i BitClear [D d; N n; M m; Flags sf] ->
  let r := Z.land (reg c n) (2 ^ 32 - 1 - reg c m) in
  runs py c i (advance (set_result sf (set (reg c) d r) r None None) (i_size i)) i.
Proof. exact C43_bic_proof. Qed.
Print Assumptions C43_bic.

Example C43_bic_ex :
  let i := an_insn BitClear [D 0; N 1; M 4; Flags Always] false in
  cpu_ok ex_state /\
  reg_after Py2 ex_state i 0 = 0x80000001 /\
  flag_N (reg_after Py2 ex_state i 16) = true.
Proof. split; [exact ex_state_ok|]. vm_compute. repeat split; reflexivity. Qed.

(** C44, lsl/lsr/asr/ror/rrx by an immediate amount; the carry out goes to C. *)
Theorem C44_shift_imm : forall py c i d n ty amount sf, regs_ok c -> gpr d -> gpr n -> 0 <= amount -> (ty = SR_RRX -> amount = 1) ->
  is_insn i ShiftOp [D d; N n; Flags sf; Ty ty; ShN amount] ->
  let (r, cf) := shift_result ty 32 (reg c n) amount (flag_C (reg c 16)) in
  runs py c i (advance (set_result sf (set (reg c) d r) r (Some cf) None) (i_size i)) i.
Proof. exact C44_shift_imm_proof. Qed.
Print Assumptions C44_shift_imm.

Example C44_shift_imm_ex :
  let i := an_insn ShiftOp [D 0; N 1; Flags Always; Ty SR_ASR; ShN 4] false in
  cpu_ok ex_state /\
  reg_after Py2 ex_state i 0 = 0xf8000000 /\
  flag_C (reg_after Py2 ex_state i 16) = false /\
  flag_N (reg_after Py2 ex_state i 16) = true.
Proof. split; [exact ex_state_ok|]. vm_compute. repeat split; reflexivity. Qed.

(** C44, by the low byte of a register. *)
Theorem C44_shift_reg : forall py c i d n m ty sf, regs_ok c -> gpr d -> gpr n -> gpr m -> ty <> SR_RRX ->
  is_insn i ShiftOp [D d; N n; M m; Flags sf; Ty ty] ->
  let (r, cf) := shift_result ty 32 (reg c n) (reg c m mod 256) (flag_C (reg c 16)) in
  runs py c i (advance (set_result sf (set (reg c) d r) r (Some cf) None) (i_size i)) i.
Proof. exact C44_shift_reg_proof. Qed.
Print Assumptions C44_shift_reg.

Example C44_shift_reg_ex :
  let i := an_insn ShiftOp [D 0; N 1; M 3; Flags Always; Ty SR_ROR] false in
  cpu_ok ex_state /\
  reg_after Py2 ex_state i 0 = 0x00018000.
Proof. split; [exact ex_state_ok|]. vm_compute. repeat split; reflexivity. Qed.

(** C52: the product modulo 2**32, N and Z. *)
Theorem C52_multiply : forall py c i d n m sf, regs_ok c -> gpr d -> gpr n -> gpr m ->
  is_insn i Multiply [D d; N n; M m; Flags sf] ->
  let r := wrap (reg c n * reg c m) in
  runs py c i (advance (set_result sf (set (reg c) d r) r None None) (i_size i)) i.
Proof. exact C52_multiply_proof. Qed.
Print Assumptions C52_multiply.

Example C52_multiply_ex :
  let i := an_insn Multiply [D 0; N 2; M 2; Flags Always] false in
  cpu_ok ex_state /\
  reg_after Py2 ex_state i 0 = 256.
Proof. split; [exact ex_state_ok|]. vm_compute. repeat split; reflexivity. Qed.
