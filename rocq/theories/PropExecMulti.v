(** Property statements; each is proved in ExecMultiThms.v under the same name.
    Written by tools/genprops.py. *)
From Coq Require Import Lia ZifyBool.
From Verif Require Import BitstringModel SpecBits BitFacts BitOps BitMisc BitText BitThms HelpersModel SpecArm HelpFacts UtilFacts CpuModel SpecCpu
  CpuFacts CpuThms InsnModel ExecModel SpecExec ExecFacts ExecDataThms ExecArithThms ExecMiscThms ExecMemThms ExecMultiThms SpecIsa.
Local Open Scope bool_scope.
Local Open Scope Z_scope.

(** C49, push: sp goes down by 4 per listed register, and the registers are stored upwards from
    there, lowest first.  On Python 3 all of r0-r14 are stored. *)
Theorem C49_push : forall py c i v, regs_ok c -> mem_ok c -> half v -> is_insn i Push [Regs v] ->
  let a := wrap (reg c 13 - 4 * reg_count v) in let f := set (reg c) 13 a in
  stores py c i (advance f (i_size i)) (word_writes f a (transferred py v)).
Proof. exact C49_push_proof. Qed.
Print Assumptions C49_push.

Example C49_push_ex :
  let i := an_insn Push [Regs 0x4011] false in
  cpu_ok ex_state /\
  reg_after Py2 ex_state i 13 = 36 /\
  mem_after Py2 ex_state i 36 = Some 7 /\
  mem_after Py2 ex_state i 40 = Some 0x78 /\
  mem_after Py2 ex_state i 44 = Some 33 /\
  mem_after Py2 ex_state i 48 = Some 0 /\
  mem_after Py3 ex_state i 48 = Some 16.
Proof. split; [exact ex_state_ok|]. vm_compute. repeat split; reflexivity. Qed.

(** C50, stm: lowest register at the lowest address, write-back of the final address. *)
Theorem C50_store_multiple : forall py c i n v wb, regs_ok c -> mem_ok c -> gpr n -> half v -> is_insn i StoreMultiple [N n; Regs v; Wb wb] ->
  let l := transferred py v in let a := reg c n in
  stores py c i (advance (if wb then set (reg c) n (wrap (a + words l)) else reg c) (i_size i)) (word_writes (reg c) a l).
Proof. exact C50_store_multiple_proof. Qed.
Print Assumptions C50_store_multiple.

Example C50_store_multiple_ex :
  let i := an_insn StoreMultiple [N 3; Regs 0x11; Wb true] false in
  cpu_ok ex_state /\
  mem_after Py2 ex_state i 16 = Some 7 /\
  mem_after Py2 ex_state i 20 = Some 0x78 /\
  reg_after Py2 ex_state i 3 = 24.
Proof. split; [exact ex_state_ok|]. vm_compute. repeat split; reflexivity. Qed.

(** C49, pop, with all outcomes. *)
Theorem C49_pop : forall py c i v, regs_ok c -> mem_ok c -> half v -> is_insn i Pop [Regs v] ->
  loads_list py c i v (reg c 13) (set (reg c) 13 (wrap (reg c 13 + 4 * reg_count v))) (fun f => f).
Proof. exact C49_pop_proof. Qed.
Print Assumptions C49_pop.

Example C49_pop_ex :
  let i := an_insn Pop [Regs 0x8003] false in
  cpu_ok ex_state /\
  reg_after Py2 ex_state i 13 = 60 /\
  reg_after Py2 ex_state i 0 = 0 /\
  reg_after Py2 ex_state i 15 = 0.
Proof. split; [exact ex_state_ok|]. vm_compute. repeat split; reflexivity. Qed.

(** C50, ldm: lowest register first; write-back unless the base is in the list. *)
Theorem C50_load_multiple : forall py c i n v wb, regs_ok c -> mem_ok c -> gpr n -> half v -> is_insn i LoadMultiple [N n; Regs v; Wb wb] ->
  loads_list py c i v (reg c n) (reg c) (rebased v n wb).
Proof. exact C50_load_multiple_proof. Qed.
Print Assumptions C50_load_multiple.

Example C50_load_multiple_ex :
  let i := an_insn LoadMultiple [N 3; Regs 0x3; Wb true] false in
  cpu_ok ex_state /\
  reg_after Py2 ex_state i 0 = 0x80ff7f01 /\
  reg_after Py2 ex_state i 1 = 0 /\
  reg_after Py2 ex_state i 3 = 24.
Proof. split; [exact ex_state_ok|]. vm_compute. repeat split; reflexivity. Qed.

(** C49: on Python 2, pop of the list right after push -- or after anything that keeps sp and the
    memory -- brings back the listed registers and sp, and changes only the pc otherwise.
    Missing: Python 3 (refuted below); lists with sp or pc, which no push encoding has. *)
Theorem C49_push_pop_partial : forall c i j v, cpu_ok c -> half v -> Z.testbit v 13 = false -> Z.testbit v 15 = false ->
  is_insn i Push [Regs v] -> is_insn j Pop [Regs v] ->
  in_one_region c (reg c 13 - 4 * reg_count v) (4 * reg_count v) ->
  exists c1, execute Py2 c i = (mkst c1 i, Ok tt) /\ reg c1 13 = reg c 13 - 4 * reg_count v /\
  forall c2, regs_ok c2 -> c_mem c2 = c_mem c1 -> reg c2 13 = reg c1 13 ->
  runs Py2 c2 j (advance (restored v (reg c) (reg c2)) (i_size j)) j.
Proof. exact C49_push_pop_partial_proof. Qed.
Print Assumptions C49_push_pop_partial.

Example C49_push_pop_partial_ex : cpu_ok ex_state /\ half 0x4011 /\
  in_one_region ex_state (reg ex_state 13 - 4 * reg_count 0x4011) (4 * reg_count 0x4011).
Proof.
  split; [exact ex_state_ok|]. split; [unfold half; lia|]. split; [vm_compute; discriminate|].
  exists 0%nat, (mkmem 0 63 (List.map (fun k => match cell ex_state 0 (Z.of_nat k) with Some b => b | None => 0 end) (List.seq 0 64))).
  intros o O. change (4 * reg_count 0x4011) with 12 in *. change (reg ex_state 13) with 48.
  split; [vm_compute; reflexivity|]. split; [unfold in_region; cbn [m_start m_end]; lia|]. intros j m J. inversion J.
Qed.
