(** Property statements; each is proved in OrderThms.v under the same name.
    Written by tools/genprops.py. *)
From Coq Require Import Lia.
From Verif Require Import InsnModel CpuModel SpecCpu TableModel ExecModel ExecFacts SpecIsa SpecExec SpecWhole SpecFrame SpecOrder OrderThms.
Local Open Scope Z_scope.

(** C97: instructions of straight-line code of which any two are independent can be executed
    in any order: if they succeed in one order they do in every other, with the same memory and
    registers. *)
Theorem C97_reorder : forall py c l l' c1, cpu_ok c -> Forall (straight py) l -> ForallOrdPairs (independent py) l -> Permutation l l' ->
  run_all py c l = Ok c1 -> exists c2, run_all py c l' = Ok c2 /\ same_machine c1 c2.
Proof. exact C97_reorder_proof. Qed.
Print Assumptions C97_reorder.

Example C97_reorder_ex : exists i j, decode_bytes Py2 [17; 70] 34 = Ok i /\ decode_bytes Py2 [34; 96] 34 = Ok j /\
  cpu_ok ex_state /\ Forall (straight Py2) [i; j] /\ ForallOrdPairs (independent Py2) [i; j] /\ Permutation [i; j] [j; i] /\
  exists c, run_all Py2 ex_state [i; j] = Ok c.
Proof.
  eexists. eexists. split; [vm_compute; reflexivity|]. split; [vm_compute; reflexivity|]. split; [exact ex_state_ok|]. split; [|split; [|split]].
  - constructor; [|constructor; [|constructor]]; (split; [|vm_compute; reflexivity]).
    + exists [17; 70], 34. split; [repeat constructor; lia|vm_compute; reflexivity].
    + exists [34; 96], 34. split; [repeat constructor; lia|vm_compute; reflexivity].
  - constructor; [|constructor; [constructor|constructor]]. constructor; [|constructor].
    split; [|split; [|vm_compute; repeat split; discriminate || reflexivity]].
    + intros k H. cbn in H. unfold changes, uses. cbn. unfold written in *. split; [reflexivity|]. lia.
    + intros k H. discriminate H.
  - constructor.
  - eexists. vm_compute. reflexivity.
Qed.

(** C97: and if an order raises, every order raises. *)
Theorem C97_fails : forall py c l l' e, cpu_ok c -> Forall (straight py) l -> ForallOrdPairs (independent py) l -> Permutation l l' ->
  run_all py c l = Err e -> exists e', run_all py c l' = Err e'.
Proof. exact C97_fails_proof. Qed.
Print Assumptions C97_fails.

(** The second is a load over the end of its region. *)
Example C97_fails_ex : exists i j, decode_bytes Py2 [17; 70] 34 = Ok i /\ decode_bytes Py2 [132; 107] 34 = Ok j /\
  run_all Py2 ex_state [i; j] = Err IndexError /\ run_all Py2 ex_state [j; i] = Err IndexError.
Proof. eexists. eexists. split; [vm_compute; reflexivity|]. split; [vm_compute; reflexivity|]. split; vm_compute; reflexivity. Qed.
