(** * Proofs about instruction objects as constructed *)
From Coq Require Import Lia.
From Verif Require Import InsnModel CpuModel SpecCpu ExecModel SpecIsa SpecExec ExecFacts ExecArithThms ExecMultiThms ExecMiscThms.
Local Open Scope Z_scope.
(*@imports From Verif Require Import InsnModel CpuModel SpecCpu ExecModel ExecFacts SpecIsa SpecExec BareThms.
Local Open Scope Z_scope. @*)

(*@doc C90: executing an instruction object as its constructor leaves it, before a decoder has
    set its attributes: the plain instruction and msr go on to the next instruction; mvn with a
    shifted register raises NameError as always (C43); every other class raises AttributeError
    and changes nothing. @*)
Lemma C90_bare_proof : forall py c k m w is32, regs_ok c -> let i := new_insn k m w is32 in
  match k with
  | Instruction | MoveToSpecial => runs py c i (advance (reg c) (i_size i)) i
  | ShiftedMoveNegate => execute py c i = (mkst c i, Err NameError)
  | _ => execute py c i = (mkst c i, Err AttributeError)
  end.
Proof.
  intros py c k m w is32 H i. destruct k; try reflexivity; subst i.
  - apply next_only. exact H.
  - unfold execute; cbn [new_insn i_klass eval]. unfold eval_Branch.
    erewrite bind_attr by reflexivity. erewrite bind_getc by reflexivity. cbv iota. rewrite (bind_getc _ _ _ _ _ _ _ (pc4_run c H)).
    erewrite bind_attr by reflexivity. rewrite (bind_lift _ _ _ _ _ _ (next_run c 0 H)). reflexivity.
  - unfold execute; cbn [new_insn i_klass eval]. unfold eval_LoadLiteral. rewrite base_run by exact H. reflexivity.
  - unfold execute; cbn [new_insn i_klass eval]. unfold eval_Push. rewrite (bind_getc _ _ _ _ _ _ _ (get_sp_run c H)). reflexivity.
  - unfold execute; cbn [new_insn i_klass eval]. unfold eval_Pop. rewrite !(bind_getc _ _ _ _ _ _ _ (get_sp_run c H)). reflexivity.
  - apply next_only. exact H.
Qed.
(*@ex
Example C90_bare_ex : cpu_ok ex_state /\ snd (execute Py2 ex_state (new_insn Load "ldr" 0x6800 false)) = Err AttributeError /\
  reg_after Py3 ex_state (new_insn MoveToSpecial "msr" 0 true) 15 = 38.
Proof. split; [exact ex_state_ok|]. vm_compute. split; reflexivity. Qed.
@*)
