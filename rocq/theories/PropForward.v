(** Property statements; each is proved in ForwardThms.v under the same name.
    Written by tools/genprops.py. *)
From Coq Require Import Lia Sorted.
From Verif Require Import InsnModel CpuModel SpecCpu TableModel ExecModel ExecFacts SpecIsa SpecExec SpecWhole SpecForward ForwardThms.
Local Open Scope Z_scope.

(** C91: one such instruction moves the pc forward, by at least 2 and less than 2^24 + 4, as a
    branch adds the complement of a negative offset (C47_backward_refuted). *)
Theorem C91_step : forall py c i s, cpu_ok c -> from_bytes py i -> ahead py i -> execute py c i = (s, Ok tt) ->
  exists d, 2 <= d < 2 ^ 24 + 4 /\ reg (s_cpu s) 15 = (reg c 15 + d) mod 2 ^ 32.
Proof. exact C91_step_proof. Qed.
Print Assumptions C91_step.

Example C91_step_ex : exists i, decode_bytes Py2 [254; 231] 34 = Ok i /\ i_operands i = [LabelOp (-4)] /\ i_klass i = Branch /\
  reg ex_state 15 = 34 /\ reg_after Py2 ex_state i 15 = 41.
Proof. eexists. split; [vm_compute; reflexivity|]. vm_compute. repeat split; reflexivity. Qed.

(** C91: no instruction is executed twice on such a walk: the addresses increase, by at least 2
    with each instruction, so that a walk below 2^32 - 2^25 ends. Loops need bx, a load of the pc
    and the like. *)
Theorem C91_walk : forall py c pcs c', cpu_ok c -> walks py c pcs c' -> Forall (fun pc => pc < 2 ^ 32 - 2 ^ 25) pcs ->
  StronglySorted Z.lt (pcs ++ [reg c' 15]) /\ reg c 15 + 2 * Z.of_nat (List.length pcs) <= reg c' 15.
Proof. exact C91_walk_proof. Qed.
Print Assumptions C91_walk.

Example C91_walk_ex : exists i c', decode_bytes Py2 [253; 231] 34 = Ok i /\ cpu_ok ex_state /\ walks Py2 ex_state [34] c' /\ reg c' 15 = 43.
Proof.
  assert (X : exists i, decode_bytes Py2 [253; 231] 34 = Ok i /\ i_klass i = Branch /\ i_operands i = [LabelOp (-6)] /\
    snd (execute Py2 ex_state i) = Ok tt /\ reg_after Py2 ex_state i 15 = 43) by (eexists; split; [vm_compute; reflexivity|]; vm_compute; repeat split; reflexivity).
  destruct X as (i & D & K & O & E & P). exists i, (s_cpu (fst (execute Py2 ex_state i))). split; [exact D|]. split; [exact ex_state_ok|]. split; [|exact P].
  change 34 with (reg ex_state 15). apply (walk_step Py2 ex_state i (fst (execute Py2 ex_state i))).
  - exists [253; 231], 34. split; [repeat constructor; discriminate|exact D].
  - right. split; [exact K|]. exists (-6). exact O.
  - rewrite <- E. destruct (execute Py2 ex_state i). reflexivity.
  - apply walk_none.
Qed.
