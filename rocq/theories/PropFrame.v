(** Property statements; each is proved in FrameThms.v under the same name.
    Written by tools/genprops.py. *)
From Coq Require Import Lia.
From Verif Require Import InsnModel CpuModel SpecCpu TableModel ExecModel ExecFacts SpecIsa SpecExec SpecWhole SpecFrame FrameFacts FrameThms.
Local Open Scope Z_scope.

(** C92: whatever the object and the machine, and whether it succeeds or raises, an instruction
    leaves alone every register other than the pc that it does not name as a destination. *)
Theorem C92_registers : forall py c i k, changes py i k = false -> k <> 15 ->
  content (s_cpu (fst (execute py c i))) k = content c k.
Proof. exact C92_registers_proof. Qed.
Print Assumptions C92_registers.

Example C92_registers_ex : exists i, decode_bytes Py2 [11; 68] 34 = Ok i /\ i_klass i = AddSub /\
  filter (changes Py2 i) (map (fun n => Z.of_nat n - 4) (seq 0 23)) = [3].
Proof. eexists. split; [vm_compute; reflexivity|]. vm_compute. repeat split; reflexivity. Qed.

(** C92: only stores, pushes and multiple stores change the memory. *)
Theorem C92_memory : forall py c i, stores_memory (i_klass i) = false -> c_mem (s_cpu (fst (execute py c i))) = c_mem c.
Proof. exact C92_memory_proof. Qed.
Print Assumptions C92_memory.

Example C92_memory_ex : exists i j, decode_bytes Py2 [11; 104] 34 = Ok i /\ decode_bytes Py2 [11; 96] 34 = Ok j /\
  stores_memory (i_klass i) = false /\ stores_memory (i_klass j) = true /\ i_klass i = Load.
Proof. eexists. eexists. split; [vm_compute; reflexivity|]. split; [vm_compute; reflexivity|]. vm_compute. repeat split; reflexivity. Qed.

(** C92: of the status register an instruction changes at most the four flags; the other bits,
    among them the number of the exception and the Thumb bit, stay. *)
Theorem C92_status : forall py c i x, content c 16 = Some x -> word x ->
  exists y, content (s_cpu (fst (execute py c i))) 16 = Some y /\ word y /\ forall b, 0 <= b < 28 -> Z.testbit y b = Z.testbit x b.
Proof. exact C92_status_proof. Qed.
Print Assumptions C92_status.

Example C92_status_ex : exists i, decode_bytes Py2 [137; 66] 34 = Ok i /\ i_klass i = Compare /\
  content ex_state 16 = Some (reg ex_state 16) /\ word (reg ex_state 16) /\ reg_after Py2 ex_state i 16 <> reg ex_state 16.
Proof. eexists. split; [vm_compute; reflexivity|]. split; [reflexivity|]. split; [vm_compute; reflexivity|]. split; [vm_compute; split; discriminate || reflexivity|]. vm_compute. discriminate. Qed.
