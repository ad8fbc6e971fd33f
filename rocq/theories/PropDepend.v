(** Property statements; each is proved in DependThms.v under the same name.
    Written by tools/genprops.py. *)
From Coq Require Import Lia.
From Verif Require Import InsnModel CpuModel SpecCpu TableModel ExecModel ExecFacts SpecIsa SpecExec SpecWhole SpecFrame FrameFacts FrameThms DependThms.
Local Open Scope Z_scope.

(** C93: executed on two machines that agree on the registers an instruction uses (and on the
    memory, if it touches it), an object has the same outcome: the same exception or none, the same
    object afterwards, the same memory, and every register is left alone in both, or has the same
    content in both, or is the pc and has been moved on in both. *)
Theorem C93_depends : forall py c1 c2 i, regs_ok c1 -> regs_ok c2 -> (touches_memory (i_klass i) = true -> c_mem c1 = c_mem c2) ->
  (forall k, uses py i k = true -> content c1 k = content c2 k) ->
  let (s1, r1) := execute py c1 i in let (s2, r2) := execute py c2 i in
  r1 = r2 /\ s_self s1 = s_self s2 /\ (c_mem c1 = c_mem c2 -> c_mem (s_cpu s1) = c_mem (s_cpu s2)) /\
  forall k, same_effect (i_size i) c1 c2 (s_cpu s1) (s_cpu s2) k.
Proof. exact C93_depends_proof. Qed.
Print Assumptions C93_depends.

Example C93_depends_ex : exists i, decode_bytes Py2 [11; 68] 34 = Ok i /\ i_klass i = AddSub /\ touches_memory (i_klass i) = false /\
  filter (uses Py2 i) (map (fun n => Z.of_nat n - 4) (seq 0 23)) = [1; 3] /\
  reg_after Py2 (ex_with [(1, 7); (3, 5); (4, 1)]) i 3 = 12 /\ reg_after Py2 (ex_with [(1, 7); (3, 5); (4, 2)]) i 3 = 12.
Proof. eexists. split; [vm_compute; reflexivity|]. vm_compute. repeat split; reflexivity. Qed.

(** C94: two instructions that do not change what the other one changes or uses can be executed
    in either order: the machine and both objects end up the same. *)
Theorem C94_commute : forall py c i j si sj, cpu_ok c -> from_bytes py i -> from_bytes py j ->
  names_pc py i = false -> names_pc py j = false ->
  independent py i j -> execute py c i = (si, Ok tt) -> execute py c j = (sj, Ok tt) ->
  exists cij cji, execute py (s_cpu si) j = (mkst cij (s_self sj), Ok tt) /\ execute py (s_cpu sj) i = (mkst cji (s_self si), Ok tt) /\
    c_mem cij = c_mem cji /\ forall k, core k -> reg cij k = reg cji k.
Proof. exact C94_commute_proof. Qed.
Print Assumptions C94_commute.

Example C94_commute_ex : exists i j, decode_bytes Py2 [17; 70] 34 = Ok i /\ decode_bytes Py2 [34; 96] 34 = Ok j /\
  i_klass i = Move /\ i_klass j = Store /\ independent Py2 i j /\ names_pc Py2 i = false /\ names_pc Py2 j = false /\
  snd (execute Py2 ex_state i) = Ok tt /\ snd (execute Py2 ex_state j) = Ok tt.
Proof.
  eexists. eexists. split; [vm_compute; reflexivity|]. split; [vm_compute; reflexivity|]. split; [reflexivity|]. split; [reflexivity|]. split.
  - split; [|split; [|vm_compute; repeat split; discriminate || reflexivity]].
    + intros k H. cbn in H. unfold changes, uses. cbn. unfold written in *. split; [reflexivity|]. lia.
    + intros k H. discriminate H.
  - vm_compute. repeat split; reflexivity.
Qed.
