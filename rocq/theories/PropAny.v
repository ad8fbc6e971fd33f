(** Property statements; each is proved in AnyThms.v under the same name.
    Written by tools/genprops.py. *)
From Coq Require Import ZArith List Bool String.
From Verif Require Import SpecIsa SpecWhole DelegateExecModel SpecBits SpecApi SpecCpu SpecExec SpecAny AnyThms.
Import ListNotations.
Local Open Scope list_scope.
Local Open Scope Z_scope.

(** C99: with the mock delegate this is the execution all other properties are about. *)
Theorem C99_mock : forall py c,
  (forall i, dexecute mock_delegate py c i = (let '(t, r) := execute py c i in (mkdst (s_cpu t) (s_self t), r))) /\
  forall l, dcpu_execute mock_delegate py c l = cpu_execute py c l.
Proof. exact C99_mock_proof. Qed.
Print Assumptions C99_mock.

Example C99_mock_ex : exists c, dexecute mock_delegate Py3 ex_state ex_ands = (mkdst c ex_ands, Ok tt) /\ reg c 0 = 1 /\ reg c 15 = 36.
Proof. eexists. split; [vm_compute; reflexivity|]. split; vm_compute; reflexivity. Qed.

(** C99: instructions see their delegate only through its four methods.  Of two delegates that
answer every call alike and stay related, an instruction, and a list of them, makes the same: the
same exception or none, the same changes of the instruction, and related delegates. *)
Theorem C99_alike : forall S1 S2 (R : S1 -> S2 -> Prop) d1 d2, mimics R d1 d2 -> forall py s1 s2, R s1 s2 ->
  (forall i, let x := dexecute d1 py s1 i in let y := dexecute d2 py s2 i in
    snd x = snd y /\ d_self (fst x) = d_self (fst y) /\ R (d_state (fst x)) (d_state (fst y))) /\
  forall l, let x := dcpu_execute d1 py s1 l in let y := dcpu_execute d2 py s2 l in
    snd x = snd y /\ snd (fst x) = snd (fst y) /\ R (fst (fst x)) (fst (fst y)).
Proof. exact C99_alike_proof. Qed.
Print Assumptions C99_alike.

Example C99_alike_ex : mimics (fun x y => fst x = y) (recording mock_delegate) mock_delegate.
Proof.
  intros [c l] c' E. cbn [fst] in E. subst c'. split; [|split; [|split]]; intros; cbn [recording del_read_register del_write_register del_read_memory del_write_memory mock_delegate].
  - split; reflexivity.
  - split; reflexivity.
  - split; reflexivity.
  - destruct (mock_write_memory c a v n); split; reflexivity.
Qed.

(** C99: so whatever is proved of execution on the mock holds for every delegate that behaves like it. *)
Theorem C99_refines : forall S (R : S -> cpu -> Prop) d, mimics R d mock_delegate -> forall py s c, R s c ->
  (forall i t r, execute py c i = (t, r) -> exists s', dexecute d py s i = (mkdst s' (s_self t), r) /\ R s' (s_cpu t)) /\
  forall l c' l' r, cpu_execute py c l = ((c', l'), r) -> exists s', dcpu_execute d py s l = ((s', l'), r) /\ R s' c'.
Proof. exact C99_refines_proof. Qed.
Print Assumptions C99_refines.

Example C99_refines_ex : exists c l, dexecute (recording mock_delegate) Py3 (ex_state, []) ex_ands = (mkdst (c, l) ex_ands, Ok tt) /\ reg c 0 = 1 /\
  map access_of l = [RReg (Some 0); RReg (Some 1); WReg (Some 0); RReg (Some 16); WReg (Some 16); RReg (Some 16); WReg (Some 16); RReg (Some 15); WReg (Some 15)].
Proof. eexists. eexists. split; [vm_compute; reflexivity|]. split; vm_compute; reflexivity. Qed.

(** C99: whatever the delegate does, an instruction is a list of calls: writing them down changes
nothing, the delegate ends as these calls leave it, and if one of them raises an exception it is the
last one and its exception is the one that comes out. *)
Theorem C99_calls : forall S (d : delegate S) py s i, exists l i' r,
  dexecute d py s i = (mkdst (replay d l s) i', r) /\
  dexecute (recording d) py (s, []) i = (mkdst (replay d l s, l) i', r) /\
  forall l1 c l2 e, l = l1 ++ c :: l2 -> refused d c (replay d l1 s) = Some e -> l2 = [] /\ r = Err e.
Proof. exact C99_calls_proof. Qed.
Print Assumptions C99_calls.

Example C99_calls_ex : let d := mkdelegate (fun _ s => (s + 1, Ok (VInt s))) (fun _ _ s => (s + 1, if s =? 2 then Err ValueError else Ok tt))
    (fun _ _ s => (s, Ok (VInt 0))) (fun _ _ _ s => (s, Ok tt)) in
  dexecute d Py3 0 ex_ands = (mkdst 3 ex_ands, Err ValueError) /\
  dexecute (recording d) Py3 (0, []) ex_ands = (mkdst (3, [DReadReg (Some 0); DReadReg (Some 1); DWriteReg (Some 0) 0]) ex_ands, Err ValueError).
Proof. split; vm_compute; reflexivity. Qed.

(** C99: which registers and how much memory an instruction accesses, and in which order, is settled
before it runs, up to the flags a branch depends on and the privilege MRS depends on: over any
delegate an instruction that finishes has made exactly the calls of one of its scripts, and one that
raises has made the first calls of one. *)
Theorem C99_script : forall S (d : delegate S) py s i, formed i ->
  exists l i' r k, dexecute (recording d) py (s, []) i = (mkdst (replay d l s, l) i', r) /\ In k (scripts py i) /\
    match r with Ok _ => map access_of l = k | Err _ => begins (map access_of l) k end.
Proof. exact C99_script_proof. Qed.
Print Assumptions C99_script.

Example C99_script_ex : formed ex_ands /\
  scripts Py3 ex_ands = [[RReg (Some 0); RReg (Some 1); WReg (Some 0); RReg (Some 16); WReg (Some 16); RReg (Some 16); WReg (Some 16); RReg (Some 15); WReg (Some 15)]].
Proof. split; [exact I|vm_compute; reflexivity]. Qed.

(** C99: the instructions decoders make are of the form asked for. *)
Theorem C99_formed : forall py i, from_bytes py i -> formed i.
Proof. exact C99_formed_proof. Qed.
Print Assumptions C99_formed.

Example C99_formed_ex : let i := decode_bytes Py3 [239; 243; 16; 128] 0 in
  (match i with Ok i => a_SYSm (i_attrs i) | Err _ => None end) = Some (bits 8 16) /\ forall j, i = Ok j -> formed j.
Proof.
  split; [vm_compute; reflexivity|]. intros j J. apply (C99_formed Py3). exists [239; 243; 16; 128], 0. split; [|exact J].
  repeat constructor; discriminate.
Qed.
