(** Property statements; each is proved in ExecArithThms.v under the same name.
    Written by tools/genprops.py. *)
From Coq Require Import Lia ZifyBool.
From Verif Require Import BitstringModel SpecBits BitFacts BitOps BitMisc BitThms HelpersModel SpecArm HelpFacts CpuModel SpecCpu
  CpuFacts CpuThms InsnModel ExecModel SpecExec ExecFacts ExecDataThms ExecArithThms SpecIsa.
Local Open Scope bool_scope.
Local Open Scope Z_scope.

(** C42, register forms, exactly what is stored: the sum of the operands with every bit inverted
    when it is negative; C and V are those of the addition.  Not proved, because false
    (C42_refuted): that the sum itself is stored. *)
Theorem C42_register_partial : forall py c i d n m sf uc sub, regs_ok c -> gpr d -> gpr n -> gpr m ->
  is_insn i AddSub [D d; N n; M m; Flags sf; Carry uc; Sub sub] ->
  let a := reg c n in let b := operand2 sub (reg c m) in let ci := carry_in sub uc (reg c 16) in
  let r := flip (wrap (a + b + ci)) in
  runs py c i (advance (set_result sf (set (reg c) d r) r (Some (carry_of a b ci)) (Some (overflow_of a b ci))) (i_size i)) i.
Proof. exact C42_register_partial_proof. Qed.
Print Assumptions C42_register_partial.

Example C42_register_partial_ex :
  let i := an_insn AddSub [D 0; N 1; M 3; Flags Always; Carry true; Sub false] false in
  cpu_ok ex_state /\
  reg_after Py2 ex_state i 0 = 2147483629 /\
  flag_N (reg_after Py2 ex_state i 16) = false.
Proof. split; [exact ex_state_ok|]. vm_compute. repeat split; reflexivity. Qed.

(** C42, immediate forms; the immediate of the object is overwritten as well. *)
Theorem C42_immediate_partial : forall py c i d n v sf uc sub, regs_ok c -> gpr d -> gpr n -> word v ->
  is_insn i AddSub [D d; N n; Flags sf; Imm v; Carry uc; Sub sub] ->
  let a := reg c n in let b := operand2 sub v in let ci := carry_in sub uc (reg c 16) in
  let r := flip (wrap (a + b + ci)) in
  runs py c i (advance (set_result sf (set (reg c) d r) r (Some (carry_of a b ci)) (Some (overflow_of a b ci))) (i_size i))
    (with_imm i (flip v)).
Proof. exact C42_immediate_partial_proof. Qed.
Print Assumptions C42_immediate_partial.

Example C42_immediate_partial_ex :
  let i := an_insn AddSub [D 0; N 3; Flags Always; Imm 20; Carry false; Sub true] false in
  cpu_ok ex_state /\
  reg_after Py2 ex_state i 0 = 3 /\
  flag_C (reg_after Py2 ex_state i 16) = false.
Proof. split; [exact ex_state_ok|]. vm_compute. repeat split; reflexivity. Qed.

(** C42, rsb. *)
Theorem C42_reverse_partial : forall py c i d n v sf, regs_ok c -> gpr d -> gpr n -> word v ->
  is_insn i ReverseSubtract [D d; N n; Flags sf; Imm v] ->
  let a := operand2 true (reg c n) in let r := flip (wrap (v - reg c n)) in
  runs py c i (advance (set_result sf (set (reg c) d r) r (Some (carry_of a v 1)) (Some (overflow_of a v 1))) (i_size i))
    (with_imm i (flip v)).
Proof. exact C42_reverse_partial_proof. Qed.
Print Assumptions C42_reverse_partial.

Example C42_reverse_partial_ex :
  let i := an_insn ReverseSubtract [D 0; N 3; Flags Always; Imm 20] true in
  cpu_ok ex_state /\
  reg_after Py2 ex_state i 0 = 4 /\
  reg_after Py2 ex_state i 15 = 38.
Proof. split; [exact ex_state_ok|]. vm_compute. repeat split; reflexivity. Qed.

(** C46, cmp and cmn of registers: N is never set, Z is set for the sums 0 and 0xffffffff,
    C and V are right. *)
Theorem C46_compare_register_partial : forall py c i n m neg, regs_ok c -> gpr n -> gpr m ->
  is_insn i Compare [N n; M m; Neg neg] ->
  let a := reg c n in let b := operand2 neg (reg c m) in
  let r := flip (wrap (a + b + b2z neg)) in
  runs py c i (advance (set_nzcv (reg c) (Some false) (Some (r =? 0))
    (Some (carry_of a b (b2z neg))) (Some (overflow_of a b (b2z neg)))) (i_size i)) i.
Proof. exact C46_compare_register_partial_proof. Qed.
Print Assumptions C46_compare_register_partial.

Example C46_compare_register_partial_ex :
  let i := an_insn Compare [N 3; M 0; Neg true] false in
  cpu_ok ex_state /\
  flag_C (reg_after Py2 ex_state i 16) = true /\
  flag_Z (reg_after Py2 ex_state i 16) = false /\
  reg_after Py2 ex_state i 3 = 16.
Proof. split; [exact ex_state_ok|]. vm_compute. repeat split; reflexivity. Qed.

(** C46, immediate forms. *)
Theorem C46_compare_immediate_partial : forall py c i n v neg, regs_ok c -> gpr n -> word v ->
  is_insn i Compare [N n; Imm v; Neg neg] ->
  let a := reg c n in let b := operand2 neg v in
  let r := flip (wrap (a + b + b2z neg)) in
  runs py c i (advance (set_nzcv (reg c) (Some false) (Some (r =? 0))
    (Some (carry_of a b (b2z neg))) (Some (overflow_of a b (b2z neg)))) (i_size i)) (with_imm i (flip v)).
Proof. exact C46_compare_immediate_partial_proof. Qed.
Print Assumptions C46_compare_immediate_partial.

Example C46_compare_immediate_partial_ex :
  let i := an_insn Compare [N 3; Imm 17; Neg true] false in
  cpu_ok ex_state /\
  flag_C (reg_after Py2 ex_state i 16) = false /\
  flag_Z (reg_after Py2 ex_state i 16) = true /\
  flag_N (reg_after Py2 ex_state i 16) = false.
Proof. split; [exact ex_state_ok|]. vm_compute. repeat split; reflexivity. Qed.

(** C46, tst. *)
Theorem C46_test : forall py c i n m ty amount, regs_ok c -> gpr n -> gpr m -> 0 <= amount -> (ty = SR_RRX -> amount = 1) ->
  is_insn i Test [N n; M m; ShT ty; ShN amount] ->
  let (y, cf) := shift_result ty 32 (reg c m) amount (flag_C (reg c 16)) in
  let r := Z.land (reg c n) y in
  runs py c i (advance (set_nzcv (reg c) (Some (negative r)) (Some (r =? 0)) (Some cf) None) (i_size i)) i.
Proof. exact C46_test_proof. Qed.
Print Assumptions C46_test.

Example C46_test_ex :
  let i := an_insn Test [N 1; M 2; ShT SR_LSL; ShN 0] false in
  cpu_ok ex_state /\
  flag_N (reg_after Py2 ex_state i 16) = true /\
  flag_Z (reg_after Py2 ex_state i 16) = false.
Proof. split; [exact ex_state_ok|]. vm_compute. repeat split; reflexivity. Qed.

(** C45, mov and mvn of a register.  A source of pc turns the flag setting off, also in the object. *)
Theorem C45_register : forall py c i d m sf neg, regs_ok c -> gpr d -> gpr m ->
  is_insn i Move [D d; M m; Flags sf; Neg neg] ->
  let r := if neg then 2 ^ 32 - 1 - reg c m else reg c m in
  let sf' := if m =? 15 then Never else sf in
  runs py c i (advance (set_result sf' (set (reg c) d r) r None None) (i_size i))
    (if m =? 15 then with_flags i Never else i).
Proof. exact C45_register_proof. Qed.
Print Assumptions C45_register.

Example C45_register_ex :
  let i := an_insn Move [D 0; M 4; Flags Always; Neg true] false in
  cpu_ok ex_state /\
  reg_after Py2 ex_state i 0 = 0xedcba987 /\
  flag_N (reg_after Py2 ex_state i 16) = true.
Proof. split; [exact ex_state_ok|]. vm_compute. repeat split; reflexivity. Qed.

(** C45, mov and mvn of an immediate; C is kept. *)
Theorem C45_immediate : forall py c i d v sf neg, regs_ok c -> gpr d -> word v ->
  is_insn i Move [D d; Flags sf; Imm v; Neg neg] ->
  let r := if neg then 2 ^ 32 - 1 - v else v in
  runs py c i (advance (set_result sf (set (reg c) d r) r None None) (i_size i)) (with_imm i r).
Proof. exact C45_immediate_proof. Qed.
Print Assumptions C45_immediate.

Example C45_immediate_ex :
  let i := an_insn Move [D 0; Flags Always; Imm 0xff; Neg false] false in
  cpu_ok ex_state /\
  reg_after Py2 ex_state i 0 = 255 /\
  flag_C (reg_after Py2 ex_state i 16) = true.
Proof. split; [exact ex_state_ok|]. vm_compute. repeat split; reflexivity. Qed.

(** C53, adr. *)
Theorem C53_adr : forall py c i d v add, regs_ok c -> gpr d -> word v ->
  is_insn i AddressToRegister [D d; Imm v; Add add] ->
  let r := offset_from add (pc_base (reg c 15)) v in
  runs py c i (advance (set (reg c) d r) (i_size i)) i.
Proof. exact C53_adr_proof. Qed.
Print Assumptions C53_adr.

Example C53_adr_ex :
  let i := an_insn AddressToRegister [D 0; Imm 8; Add true] false in
  cpu_ok ex_state /\
  reg_after Py2 ex_state i 0 = 44 /\
  reg_after Py2 ex_state i 15 = 36.
Proof. split; [exact ex_state_ok|]. vm_compute. repeat split; reflexivity. Qed.

(** C51, sxtb/sxth/uxtb/uxth. *)
Theorem C51_extend : forall py c i d m sf rot w sgn, regs_ok c -> gpr d -> gpr m -> 0 <= rot -> w = 8 \/ w = 16 ->
  is_insn i Extend [D d; M m; Flags sf; Rot rot; Wid w; Sgn sgn] ->
  let r := extended w sgn (rotr 32 (reg c m) rot) in
  runs py c i (advance (set (reg c) d r) (i_size i)) i.
Proof. exact C51_extend_proof. Qed.
Print Assumptions C51_extend.

Example C51_extend_ex :
  let i := an_insn Extend [D 0; M 2; Flags Never; Rot 0; Wid 8; Sgn true] false in
  cpu_ok ex_state /\
  reg_after Py2 ex_state i 0 = 0xfffffff0.
Proof. split; [exact ex_state_ok|]. vm_compute. repeat split; reflexivity. Qed.
