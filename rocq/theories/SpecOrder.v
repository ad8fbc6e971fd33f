(** * Executing a list of instructions *)
From Coq Require Export Permutation.
From Verif Require Import BitstringModel CpuModel InsnModel ExecModel SpecWhole SpecFrame.

(** One after the other; the first exception ends it. *)
Fixpoint run_all (py : pyver) (c : cpu) (l : list insn) : res cpu :=
  match l with
  | [] => Ok c
  | i :: l' => match execute py c i with
               | (s, Ok _) => run_all py (s_cpu s) l'
               | (_, Err e) => Err e
               end
  end.
(** The same memory and the same register contents. *)
Definition same_machine (c c' : cpu) : Prop := c_mem c = c_mem c' /\ forall k, content c k = content c' k.
(** An instruction of straight-line code: decoded, and not one that names the pc. *)
Definition straight (py : pyver) (i : insn) : Prop := from_bytes py i /\ names_pc py i = false.
