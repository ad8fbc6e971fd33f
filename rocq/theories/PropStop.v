(** Property statements; each is proved in StopThms.v under the same name.
    Written by tools/genprops.py. *)
From Coq Require Import ZArith List Bool String.
From Verif Require Import SpecIsa SpecWhole DelegateExecModel SpecBits SpecApi SpecCpu SpecExec SpecAny SpecStop StopThms.
Import ListNotations.
Local Open Scope list_scope.
Local Open Scope Z_scope.

(** C99: an instruction that is stopped after so many of its calls, by a delegate that then
raises an exception, or between two calls, leaves the delegate as these calls left it, and the
exception comes out; if it makes no more calls, it is as if nothing had happened. *)
Theorem C99_stop : forall S (d : delegate S) e py s i n,
  let '(t, r) := dexecute (recording d) py (s, []) i in let l := snd (d_state t) in
  let '(t', r') := dexecute (stopping d e) py (n, s) i in
  ((List.length l <= n)%nat -> t' = mkdst ((n - List.length l)%nat, replay d l s) (d_self t) /\ r' = r) /\
  ((n < List.length l)%nat -> d_state t' = (O, replay d (firstn n l) s) /\ r' = Err e).
Proof. exact C99_stop_proof. Qed.
Print Assumptions C99_stop.

Example C99_stop_ex : let f n := dexecute (stopping mock_delegate KeyError) Py3 (n, ex_state) ex_ands in
  snd (f 2%nat) = Err KeyError /\ reg (snd (d_state (fst (f 2%nat)))) 0 = reg ex_state 0 /\
  snd (f 3%nat) = Err KeyError /\ reg (snd (d_state (fst (f 3%nat)))) 0 = 1 /\ reg (snd (d_state (fst (f 3%nat)))) 15 = reg ex_state 15 /\
  snd (f 9%nat) = Ok tt /\ reg (snd (d_state (fst (f 9%nat)))) 15 = 36.
Proof. vm_compute. repeat split; reflexivity. Qed.

(** C99: the same for a list of instructions: what is left is what the first so many calls of the uninterrupted run left. *)
Theorem C99_stop_run : forall S (d : delegate S) e py s is n,
  let '((t, l), is', r) := dcpu_execute (recording d) py (s, []) is in
  let '(t', is2, r') := dcpu_execute (stopping d e) py (n, s) is in
  ((List.length l <= n)%nat -> t' = ((n - List.length l)%nat, replay d l s) /\ is2 = is' /\ r' = r) /\
  ((n < List.length l)%nat -> t' = (O, replay d (firstn n l) s) /\ r' = Err e).
Proof. exact C99_stop_run_proof. Qed.
Print Assumptions C99_stop_run.

Example C99_stop_run_ex : let f n := dcpu_execute (stopping mock_delegate KeyError) Py3 (n, ex_state) [ex_ands; ex_ands] in
  snd (f 9%nat) = Err KeyError /\ reg (snd (fst (fst (f 9%nat)))) 15 = 36 /\ snd (f 17%nat) = Err KeyError /\ reg (snd (fst (fst (f 17%nat)))) 15 = 36 /\
  snd (f 18%nat) = Ok tt /\ reg (snd (fst (fst (f 18%nat)))) 15 = 38.
Proof. vm_compute. repeat split; reflexivity. Qed.
