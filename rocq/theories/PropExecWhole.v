(** Property statements; each is proved in ExecWholeThms.v under the same name.
    Written by tools/genprops.py. *)
From Coq Require Import Lia.
From Verif Require Import BitstringModel SpecBits SpecArm CpuModel SpecCpu InsnModel TableModel ExecModel SpecExec ExecFacts SpecIsa SpecWhole ExecWholeThms.

(** C40: executing a decoded instruction, whether or not it raises, keeps the machine
well-formed and the mapped regions. *)
Theorem C40_execute : forall py c i, cpu_ok c -> from_bytes py i ->
  let c' := s_cpu (fst (execute py c i)) in cpu_ok c' /\ layout c' = layout c.
Proof. exact C40_execute_proof. Qed.
Print Assumptions C40_execute.

Example C40_execute_ex : cpu_ok ex_state /\ exists i, decode_bytes Py2 [15; 181] 34 = Ok i /\ i_mnemonic i = "push"%string /\
  reg_after Py2 ex_state i 13 = 28 /\ reg_after Py2 ex_state i 17 = 28.
Proof. split; [exact ex_state_ok|]. eexists. split; [vm_compute; reflexivity|]. vm_compute. repeat split; reflexivity. Qed.

(** C40: the same after executing the objects of a pool of decoded instructions any
number of times in any order, with exceptions caught in between. *)
Theorem C40_history : forall py c l ns, cpu_ok c -> Forall (from_bytes py) l ->
  let c' := fst (run_pool py (c, l) ns) in cpu_ok c' /\ layout c' = layout c.
Proof. exact C40_history_proof. Qed.
Print Assumptions C40_history.

Example C40_history_ex : exists i j, decode_bytes Py2 [15; 181] 34 = Ok i /\ decode_bytes Py2 [79; 240; 0; 64] 34 = Ok j /\
  reg (fst (run_pool Py2 (ex_state, [i; j]) [0; 1; 0; 1; 1]%nat)) 13 = 8 /\ reg (fst (run_pool Py2 (ex_state, [i; j]) [0; 1; 0; 1; 1]%nat)) 0 = 2147483648.
Proof. eexists. eexists. split; [vm_compute; reflexivity|]. split; [vm_compute; reflexivity|]. vm_compute. split; reflexivity. Qed.

(** C41: an instruction that is not a branch and does not name the pc as destination
moves the pc on by its size, and leaves it if it raises. *)
Theorem C41_advance : forall py c i s r, cpu_ok c -> from_bytes py i -> names_pc py i = false -> execute py c i = (s, r) ->
  reg (s_cpu s) 15 = match r with Ok _ => (reg c 15 + i_size i) mod 2 ^ 32 | Err _ => reg c 15 end.
Proof. exact C41_advance_proof. Qed.
Print Assumptions C41_advance.

Example C41_advance_ex : exists i, decode_bytes Py2 [15; 181] 34 = Ok i /\ names_pc Py2 i = false /\ reg ex_state 15 = 34 /\ reg_after Py2 ex_state i 15 = 36.
Proof. eexists. split; [vm_compute; reflexivity|]. vm_compute. repeat split; reflexivity. Qed.

(** C41: a straight-line sequence of decoded instructions, executed by the machine
without exception, advances the pc by the sum of their sizes. *)
Theorem C41_straight_line : forall py c l c' l', cpu_ok c -> Forall (from_bytes py) l -> Forall (fun i => names_pc py i = false) l ->
  cpu_execute py c l = ((c', l'), Ok tt) -> reg c' 15 = (reg c 15 + sizes l) mod 2 ^ 32.
Proof. exact C41_straight_line_proof. Qed.
Print Assumptions C41_straight_line.

Example C41_straight_line_ex : exists i j, decode_bytes Py2 [15; 181] 34 = Ok i /\ decode_bytes Py2 [79; 240; 0; 64] 34 = Ok j /\
  names_pc Py2 i = false /\ names_pc Py2 j = false /\ sizes [i; j] = 6 /\
  snd (cpu_execute Py2 ex_state [i; j]) = Ok tt /\ reg (fst (fst (cpu_execute Py2 ex_state [i; j]))) 15 = 40.
Proof. eexists. eexists. split; [vm_compute; reflexivity|]. split; [vm_compute; reflexivity|]. vm_compute. repeat split; reflexivity. Qed.

(** C55: except for cmp.w, cmn.w and rsb.w with an immediate that is negative as a signed
number, a decoded object executed on any machines any number of times behaves on every
machine as the object fresh from decoding. Missing: those three instructions. *)
Theorem C55_partial : forall py c i cs, from_bytes py i -> stable i -> Forall cpu_ok cs -> regs_ok c ->
  execute py c (rerun py i cs) = execute py c i.
Proof. exact C55_partial_proof. Qed.
Print Assumptions C55_partial.

Example C55_partial_ex : exists i, decode_bytes Py2 [79; 240; 0; 64] 34 = Ok i /\ stable i /\ i_mnemonic i = "mov.w"%string /\
  reg_after Py2 ex_state (rerun Py2 i [ex_state; ex_state]) 0 = 2147483648.
Proof.
  eexists. split; [vm_compute; reflexivity|]. split; [intros [E|E]; vm_compute in E; discriminate E|]. vm_compute. split; reflexivity.
Qed.

(** C55: refuted: cmp.w r0, #0x80000000 executed twice sets other flags the second
time. *)
Theorem C55_refuted : exists i c, from_bytes Py2 i /\ cpu_ok c /\
  reg (s_cpu (fst (execute Py2 c (rerun Py2 i [c])))) 16 <> reg (s_cpu (fst (execute Py2 c i))) 16.
Proof. exact C55_refuted_proof. Qed.
Print Assumptions C55_refuted.

(** C56: if a load, store or literal load raises, the machine and the object are what
they were. *)
Theorem C56_unchanged : forall py c i s e, cpu_ok c -> from_bytes py i -> i_klass i = Load \/ i_klass i = Store \/ i_klass i = LoadLiteral ->
  execute py c i = (s, Err e) -> s = mkst c i.
Proof. exact C56_unchanged_proof. Qed.
Print Assumptions C56_unchanged.

Example C56_unchanged_ex : exists i, decode_bytes Py2 [24; 104] 34 = Ok i /\ i_klass i = Load /\
  let c := do_cops ex_state [CopR 3 (NInt 62)] in snd (execute Py2 c i) = Err IndexError /\ reg_after Py2 c i 15 = 34.
Proof. eexists. split; [vm_compute; reflexivity|]. vm_compute. repeat split; reflexivity. Qed.

(** C56: stores never raise. *)
Theorem C56_stores : forall py c i, cpu_ok c -> from_bytes py i -> i_klass i = Store \/ i_klass i = Push \/ i_klass i = StoreMultiple ->
  snd (execute py c i) = Ok tt.
Proof. exact C56_stores_proof. Qed.
Print Assumptions C56_stores.

Example C56_stores_ex : exists i, decode_bytes Py2 [24; 96] 34 = Ok i /\ i_klass i = Store /\
  snd (execute Py2 (do_cops ex_state [CopR 3 (NInt 62)]) i) = Ok tt.
Proof. eexists. split; [vm_compute; reflexivity|]. vm_compute. repeat split; reflexivity. Qed.
