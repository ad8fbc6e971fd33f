(** Property statements; each is proved in ExecMemThms.v under the same name.
    Written by tools/genprops.py. *)
From Coq Require Import Lia ZifyBool.
From Verif Require Import BitstringModel SpecBits BitFacts BitOps BitMisc BitText BitThms HelpersModel SpecArm HelpFacts UtilFacts CpuModel SpecCpu
  CpuFacts CpuThms InsnModel ExecModel SpecExec ExecFacts ExecDataThms ExecArithThms ExecMiscThms ExecMemThms SpecIsa.
Local Open Scope bool_scope.
Local Open Scope Z_scope.

(** C48 and C56, loads with immediate offset: the extended data, then the write-back, the target
    last; a read running over the end of the region raises and changes nothing. *)
Theorem C48_load_immediate : forall py c i t n v idx add wb ms sgn, regs_ok c -> mem_ok c -> gpr t -> gpr n -> word v -> size_ok ms ->
  is_insn i Load [T t; N n; Imm v; Idx idx; Add add; Wb wb; Mem ms; Sgn sgn] ->
  loads py c i t n idx add wb ms sgn v.
Proof. exact C48_load_immediate_proof. Qed.
Print Assumptions C48_load_immediate.

Example C48_load_immediate_ex :
  let i := an_insn Load [T 0; N 3; Imm 2; Idx true; Add true; Wb false; Mem 16; Sgn true] false in
  cpu_ok ex_state /\
  reg_after Py2 ex_state i 0 = 0xffff80ff.
Proof. split; [exact ex_state_ok|]. vm_compute. repeat split; reflexivity. Qed.

(** C48 and C56, loads with shifted register offset. *)
Theorem C48_load_register : forall py c i t n m ty amount idx add wb ms sgn, regs_ok c -> mem_ok c -> gpr t -> gpr n -> gpr m ->
  0 <= amount -> (ty = SR_RRX -> amount = 1) -> size_ok ms ->
  is_insn i Load [T t; N n; M m; ShT ty; ShN amount; Idx idx; Add add; Wb wb; Mem ms; Sgn sgn] ->
  loads py c i t n idx add wb ms sgn (fst (shift_result ty 32 (reg c m) amount (flag_C (reg c 16)))).
Proof. exact C48_load_register_proof. Qed.
Print Assumptions C48_load_register.

Example C48_load_register_ex :
  let i := an_insn Load [T 0; N 3; M 0; ShT SR_LSR; ShN 2; Idx true; Add true; Wb false; Mem 8; Sgn false] false in
  cpu_ok ex_state /\
  reg_after Py2 ex_state i 0 = 127.
Proof. split; [exact ex_state_ok|]. vm_compute. repeat split; reflexivity. Qed.

(** C48, C53 and C56, literal loads. *)
Theorem C48_load_literal : forall py c i t v add ms sgn, regs_ok c -> mem_ok c -> gpr t -> word v -> size_ok ms ->
  is_insn i LoadLiteral [T t; Imm v; Add add; Mem ms; Sgn sgn] ->
  let ad := offset_from add (pc_base (reg c 15)) v in
  (forall u, reads c ad ms u -> runs py c i (advance (set (reg c) t (extended ms sgn u)) (i_size i)) i) /\
  (cut_off c ad ms -> execute py c i = (mkst c i, Err IndexError)) /\
  ((exists u, reads c ad ms u) \/ cut_off c ad ms).
Proof. exact C48_load_literal_proof. Qed.
Print Assumptions C48_load_literal.

Example C48_load_literal_ex :
  let i := an_insn LoadLiteral [T 0; Imm 20; Add false; Mem 32; Sgn false] true in
  cpu_ok ex_state /\
  reg_after Py2 ex_state i 0 = 0x80ff7f01.
Proof. split; [exact ex_state_ok|]. vm_compute. repeat split; reflexivity. Qed.

(** C48, stores: the low bits go to the address, nothing else changes but the pc. The
code ignores the write-back attribute, which no encoding sets (C48_no_write_back). *)
Theorem C48_store_immediate : forall py c i t n v idx add wb ms sgn, regs_ok c -> mem_ok c -> gpr t -> gpr n -> word v -> size_ok ms ->
  is_insn i Store [T t; N n; Imm v; Idx idx; Add add; Wb wb; Mem ms; Sgn sgn] ->
  stores py c i (advance (reg c) (i_size i)) [mkwr (snd (addresses add idx (reg c n) v)) (reg c t mod 2 ^ ms) ms].
Proof. exact C48_store_immediate_proof. Qed.
Print Assumptions C48_store_immediate.

Example C48_store_immediate_ex :
  let i := an_insn Store [T 4; N 3; Imm 4; Idx true; Add true; Wb false; Mem 16; Sgn false] false in
  cpu_ok ex_state /\
  mem_after Py2 ex_state i 20 = Some 0x78 /\
  mem_after Py2 ex_state i 21 = Some 0x56 /\
  mem_after Py2 ex_state i 22 = Some 0.
Proof. split; [exact ex_state_ok|]. vm_compute. repeat split; reflexivity. Qed.

(** C48, stores with shifted register offset. *)
Theorem C48_store_register : forall py c i t n m ty amount idx add wb ms sgn, regs_ok c -> mem_ok c -> gpr t -> gpr n -> gpr m ->
  0 <= amount -> (ty = SR_RRX -> amount = 1) -> size_ok ms ->
  is_insn i Store [T t; N n; M m; ShT ty; ShN amount; Idx idx; Add add; Wb wb; Mem ms; Sgn sgn] ->
  let off := fst (shift_result ty 32 (reg c m) amount (flag_C (reg c 16))) in
  stores py c i (advance (reg c) (i_size i)) [mkwr (snd (addresses add idx (reg c n) off)) (reg c t mod 2 ^ ms) ms].
Proof. exact C48_store_register_proof. Qed.
Print Assumptions C48_store_register.

Example C48_store_register_ex :
  let i := an_insn Store [T 4; N 3; M 0; ShT SR_LSL; ShN 1; Idx true; Add true; Wb false; Mem 8; Sgn false] true in
  cpu_ok ex_state /\
  mem_after Py2 ex_state i 30 = Some 0x78 /\
  mem_after Py2 ex_state i 31 = Some 0.
Proof. split; [exact ex_state_ok|]. vm_compute. repeat split; reflexivity. Qed.
