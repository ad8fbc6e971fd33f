(** Property statements; each is proved in BareThms.v under the same name.
    Written by tools/genprops.py. *)
From Verif Require Import InsnModel CpuModel SpecCpu ExecModel ExecFacts SpecIsa SpecExec BareThms.
Local Open Scope Z_scope.

(** C90: executing an instruction object as its constructor leaves it, before a decoder has
    set its attributes: the plain instruction and msr go on to the next instruction; mvn with a
    shifted register raises NameError as always (C43); every other class raises AttributeError
    and changes nothing. *)
Theorem C90_bare : forall py c k m w is32, regs_ok c -> let i := new_insn k m w is32 in
  match k with
  | Instruction | MoveToSpecial => runs py c i (advance (reg c) (i_size i)) i
  | ShiftedMoveNegate => execute py c i = (mkst c i, Err NameError)
  | _ => execute py c i = (mkst c i, Err AttributeError)
  end.
Proof. exact C90_bare_proof. Qed.
Print Assumptions C90_bare.

Example C90_bare_ex : cpu_ok ex_state /\ snd (execute Py2 ex_state (new_insn Load "ldr" 0x6800 false)) = Err AttributeError /\
  reg_after Py3 ex_state (new_insn MoveToSpecial "msr" 0 true) 15 = 38.
Proof. split; [exact ex_state_ok|]. vm_compute. split; reflexivity. Qed.
