(** Property statements; each is proved in HandThms.v under the same name.
    Written by tools/genprops.py. *)
From Coq Require Import Lia.
From Verif Require Import InsnModel ExecModel SpecArm SpecCpu SpecExec SpecIsa SpecWhole ExecFacts ExecShape HandThms.
Import ListNotations.
Local Open Scope string_scope.
Local Open Scope list_scope.
Local Open Scope Z_scope.

(** C54, mrs with a number that names no special register, as only an object made by hand
    has it: zero is read. *)
Theorem C54_mrs_other : forall py c i d y, regs_ok c -> gpr d -> 0 <= y < 256 -> special y = false ->
  is_insn i MoveFromSpecial [D d; Sys y] -> runs py c i (advance (set (reg c) d 0) (i_size i)) i.
Proof. exact C54_mrs_other_proof. Qed.
Print Assumptions C54_mrs_other.

Example C54_mrs_other_ex : let i := an_insn MoveFromSpecial [D 0; Sys 10] true in special 10 = false /\
  cpu_ok ex_state /\ reg ex_state 0 = 7 /\ reg_after Py2 ex_state i 0 = 0 /\ reg_after Py2 ex_state i 15 = 38.
Proof. split; [reflexivity|]. split; [exact ex_state_ok|]. vm_compute. repeat split; reflexivity. Qed.

(** C96, uxt and sxt of any width from 1 to 32. *)
Theorem C96_extend : forall py c i d m sf rot w sgn, regs_ok c -> gpr d -> gpr m -> 0 <= rot -> 1 <= w <= 32 ->
  is_insn i Extend [D d; M m; Flags sf; Rot rot; Wid w; Sgn sgn] ->
  let r := extended w sgn (rotr 32 (reg c m) rot) in
  runs py c i (advance (set (reg c) d r) (i_size i)) i.
Proof. exact C96_extend_proof. Qed.
Print Assumptions C96_extend.

Example C96_extend_ex : let i := an_insn Extend [D 0; M 4; Flags Never; Rot 4; Wid 12; Sgn true] true in
  cpu_ok ex_state /\ reg ex_state 4 = 0x12345678 /\ reg_after Py2 ex_state i 0 = 0x567.
Proof. split; [exact ex_state_ok|]. vm_compute. repeat split; reflexivity. Qed.

(** C96, rev with a width other than 4 and 2: zero. *)
Theorem C96_byte_reverse : forall py c i d m w sgn, regs_ok c -> gpr d -> gpr m -> w <> 4 -> w <> 2 ->
  is_insn i ByteReverse [D d; M m; Wid w; Sgn sgn] -> runs py c i (advance (set (reg c) d 0) (i_size i)) i.
Proof. exact C96_byte_reverse_proof. Qed.
Print Assumptions C96_byte_reverse.

Example C96_byte_reverse_ex : let i := an_insn ByteReverse [D 0; M 4; Wid 3; Sgn false] true in
  cpu_ok ex_state /\ reg ex_state 0 = 7 /\ reg_after Py2 ex_state i 0 = 0.
Proof. split; [exact ex_state_ok|]. vm_compute. repeat split; reflexivity. Qed.

(** C96, a shift with a negative amount, or an RRX not by one: AssertionError, and nothing
    has changed. *)
Theorem C96_shift : forall py c i d n ty amount sf, regs_ok c -> gpr n ->
  (ty = SR_RRX /\ amount <> 1) \/ amount < 0 /\ (ty = SR_LSL \/ ty = SR_LSR \/ ty = SR_ASR) ->
  is_insn i ShiftOp [D d; N n; Flags sf; Ty ty; ShN amount] -> execute py c i = (mkst c i, Err AssertionError).
Proof. exact C96_shift_proof. Qed.
Print Assumptions C96_shift.

Example C96_shift_ex : cpu_ok ex_state /\
  execute Py2 ex_state (an_insn ShiftOp [D 0; N 1; Flags Never; Ty SR_LSR; ShN (-1)] false) =
    (mkst ex_state (an_insn ShiftOp [D 0; N 1; Flags Never; Ty SR_LSR; ShN (-1)] false), Err AssertionError) /\
  snd (execute Py2 ex_state (an_insn ShiftOp [D 0; N 1; Flags Never; Ty SR_ROR; ShN (-1)] false)) = Ok tt.
Proof. split; [exact ex_state_ok|]. vm_compute. split; reflexivity. Qed.

(** C96, the same for tst. *)
Theorem C96_test : forall py c i n m ty amount, regs_ok c -> gpr m ->
  (ty = SR_RRX /\ amount <> 1) \/ amount < 0 /\ (ty = SR_LSL \/ ty = SR_LSR \/ ty = SR_ASR) ->
  is_insn i Test [N n; M m; ShT ty; ShN amount] -> execute py c i = (mkst c i, Err AssertionError).
Proof. exact C96_test_proof. Qed.
Print Assumptions C96_test.

Example C96_test_ex : cpu_ok ex_state /\
  snd (execute Py2 ex_state (an_insn Test [N 0; M 1; ShT SR_RRX; ShN 2] false)) = Err AssertionError.
Proof. split; [exact ex_state_ok|]. vm_compute. reflexivity. Qed.

(** C96, a branch whose condition is not in the table: KeyError. *)
Theorem C96_branch : forall py c i l k, i_klass i = Branch -> i_attrs i = attributes l -> a_cond (attributes l) = Some k ->
  ~ (0 <= k <= 15) -> execute py c i = (mkst c i, Err KeyError).
Proof. exact C96_branch_proof. Qed.
Print Assumptions C96_branch.

Example C96_branch_ex : snd (execute Py2 ex_state (an_insn Branch [M 0; Link false; Cond 16; Delta 0] false)) = Err KeyError.
Proof. vm_compute. reflexivity. Qed.

(** C96, a literal load of a size the memory does not know: zero, wherever it reads. *)
Theorem C96_load : forall py c i t v add ms sgn, regs_ok c -> gpr t -> word v -> 1 <= ms <= 32 -> ~ size_ok ms ->
  is_insn i LoadLiteral [T t; Imm v; Add add; Mem ms; Sgn sgn] ->
  runs py c i (advance (set (reg c) t 0) (i_size i)) i.
Proof. exact C96_load_proof. Qed.
Print Assumptions C96_load.

Example C96_load_ex : let i := an_insn LoadLiteral [T 0; Imm 20; Add false; Mem 24; Sgn true] true in
  cpu_ok ex_state /\ reg_after Py2 ex_state i 0 = 0.
Proof. split; [exact ex_state_ok|]. vm_compute. repeat split; reflexivity. Qed.

(** C96, a store of a size the memory does not know: only the pc moves. *)
Theorem C96_store : forall py c i t n v idx add wb ms sgn, regs_ok c -> gpr t -> gpr n -> word v -> 1 <= ms <= 32 -> ~ size_ok ms ->
  is_insn i Store [T t; N n; Imm v; Idx idx; Add add; Wb wb; Mem ms; Sgn sgn] ->
  runs py c i (advance (reg c) (i_size i)) i.
Proof. exact C96_store_proof. Qed.
Print Assumptions C96_store.

Example C96_store_ex : let i := an_insn Store [T 4; N 3; Imm 4; Idx true; Add true; Wb false; Mem 24; Sgn false] false in
  cpu_ok ex_state /\ mem_after Py2 ex_state i 20 = cell ex_state 0 20 /\ reg_after Py2 ex_state i 15 = reg ex_state 15 + 2.
Proof. split; [exact ex_state_ok|]. vm_compute. repeat split; reflexivity. Qed.
