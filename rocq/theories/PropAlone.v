(** Property statements; each is proved in AloneThms.v under the same name.
    Written by tools/genprops.py. *)
From Coq Require Import ZArith List Bool String.
From Verif Require Import BitstringModel SpecBits InsnModel ExecModel SpecExec SpecWhole AloneModel SpecAlone AloneThms SpecIsa.
Import ListNotations.
Local Open Scope list_scope.
Local Open Scope Z_scope.

(** C99: on a CPU model without delegate every decoded instruction raises; which exception and
    what has become of the object depend on its class and attributes only. *)
Theorem C99_alone_raises : forall py i, from_bytes py i -> aexecute py i = (left_as i, Err (raised i)).
Proof. exact C99_alone_raises_proof. Qed.
Print Assumptions C99_alone_raises.

Example C99_alone_raises_ex : let i := decode_bytes Py3 [10; 56] 0 in
  (match i with Ok i => (i_klass i, a_imm32 (i_attrs i)) | Err _ => (Branch, None) end) = (AddSub, Some (bits 32 10)) /\
  forall j, i = Ok j -> aexecute Py3 j = (with_imm j (2 ^ 32 - 11), Err AttributeError).
Proof.
  split; [vm_compute; reflexivity|]. intros j J. rewrite C99_alone_raises.
  - vm_compute in J. injection J as <-. reflexivity.
  - exists [10; 56], 0. split; [|exact J]. repeat constructor; discriminate.
Qed.

(** C99: executing the object once more raises the same; the complemented immediate is
    restored. *)
Theorem C99_alone_twice : forall py i, from_bytes py i ->
  aexecute py (left_as i) = (match i_klass i with Move => left_as i | _ => i end, Err (raised i)).
Proof. exact C99_alone_twice_proof. Qed.
Print Assumptions C99_alone_twice.

Example C99_alone_twice_ex : let i := decode_bytes Py3 [10; 40] 0 in
  (match i with Ok i => i_klass i | Err _ => Branch end) = Compare /\
  forall j, i = Ok j -> left_as j <> j /\ aexecute Py3 (left_as j) = (j, Err AttributeError).
Proof.
  split; [vm_compute; reflexivity|]. intros j J. rewrite (C99_alone_twice Py3 j).
  - vm_compute in J. injection J as <-. split; [discriminate|reflexivity].
  - exists [10; 40], 0. split; [|exact J]. repeat constructor; discriminate.
Qed.

(** C99: [cpu.execute] of decoded instructions raises at the first one; the others are not
    touched. *)
Theorem C99_alone_list : forall py l, Forall (from_bytes py) l ->
  acpu_execute py l = match l with [] => ([], Ok tt) | i :: l' => (left_as i :: l', Err (raised i)) end.
Proof. exact C99_alone_list_proof. Qed.
Print Assumptions C99_alone_list.

Example C99_alone_list_ex : acpu_execute Py2 [an_insn Instruction [] false; an_insn Multiply [D 1; N 2; M 3; Flags Never] false] =
  ([an_insn Instruction [] false; an_insn Multiply [D 1; N 2; M 3; Flags Never] false], Err TypeError).
Proof. vm_compute. reflexivity. Qed.

(** C99: whatever the object, it can only be executed without a delegate if it is a multiple load, and
    on Python 2; the object is then as it was. *)
Theorem C99_alone_passes : forall py i j, aexecute py i = (j, Ok tt) -> i_klass i = LoadMultiple /\ py = Py2 /\ j = i.
Proof. exact C99_alone_passes_proof. Qed.
Print Assumptions C99_alone_passes.

Example C99_alone_passes_ex : let i := an_insn LoadMultiple [N 3; Regs (2 ^ 15); Wb false] true in
  aexecute Py2 i = (i, Ok tt) /\ aexecute Py3 i = (i, Err TypeError).
Proof. split; vm_compute; reflexivity. Qed.

(** C99: on Python 2 a multiple load passes exactly if it lists the pc alone and has nothing to
    write back. *)
Theorem C99_alone_pc_only : forall i n v wb, gpr n -> half v -> is_insn i LoadMultiple [N n; Regs v; Wb wb] ->
  aexecute Py2 i = (i, if (v =? 2 ^ 15) && (negb wb || (n =? 15)) then Ok tt else Err TypeError).
Proof. exact C99_alone_pc_only_proof. Qed.
Print Assumptions C99_alone_pc_only.

Example C99_alone_pc_only_ex : map (fun '(n, v, wb) => snd (aexecute Py2 (an_insn LoadMultiple [N n; Regs v; Wb wb] true)))
    [(3, 0x8000, false); (15, 0x8000, true); (3, 0x8000, true); (3, 0x8001, false); (3, 0, false)] =
  [Ok tt; Ok tt; Err TypeError; Err TypeError; Err TypeError].
Proof. vm_compute. reflexivity. Qed.

(** C99: objects that pass are passed over: [cpu.execute] goes on with the ones after them. *)
Theorem C99_alone_goes_on : forall l1 l2, Forall pc_only l1 ->
  acpu_execute Py2 (l1 ++ l2) = (l1 ++ fst (acpu_execute Py2 l2), snd (acpu_execute Py2 l2)).
Proof. exact C99_alone_goes_on_proof. Qed.
Print Assumptions C99_alone_goes_on.

Example C99_alone_goes_on_ex : let i := an_insn LoadMultiple [N 3; Regs (2 ^ 15); Wb false] true in
  let j := an_insn ShiftedMoveNegate [] true in
  pc_only i /\ acpu_execute Py2 [i; i; j; i] = ([i; i; j; i], Err NameError).
Proof. split; [|vm_compute; reflexivity]. exists 3, false. repeat split; discriminate. Qed.

(** C99: whatever the object, executing it changes at most its immediate and its wish to set
    flags, and only additions, comparisons and moves change at all. *)
Theorem C99_alone_object : forall py i, let j := fst (aexecute py i) in
  bare j = bare i /\ with_immediate j = with_immediate i /\ (changes_itself (i_klass i) = false -> j = i).
Proof. exact C99_alone_object_proof. Qed.
Print Assumptions C99_alone_object.

Example C99_alone_object_ex : let i := an_insn AddSub [N 3; Imm 5; Sub true] true in
  aexecute Py2 i = (with_imm i (2 ^ 32 - 6), Err AttributeError) /\ changes_itself (i_klass i) = true.
Proof. split; vm_compute; reflexivity. Qed.

(** C99, MRS: with any number as special register and any as destination, it is TypeError if the CPU
    has to be asked; otherwise the destination decides. *)
Theorem C99_alone_mrs : forall py i d y, 0 <= y < 256 -> is_insn i MoveFromSpecial [D d; Sys y] ->
  aexecute py i = (i, Err (if negb (asks y) && (15 <? d) then KeyError else TypeError)).
Proof. exact C99_alone_mrs_proof. Qed.
Print Assumptions C99_alone_mrs.

Example C99_alone_mrs_ex : map (fun '(d, y) => snd (aexecute Py3 (an_insn MoveFromSpecial [D d; Sys y] true))) [(0, 0); (16, 20); (16, 6); (16, 21)] =
  [Err TypeError; Err TypeError; Err KeyError; Err KeyError].
Proof. vm_compute. reflexivity. Qed.

(** C99, byte reversal: with a width other than 2 and 4 nothing is reversed and the destination
    decides. *)
Theorem C99_alone_reverse : forall py i d m w sgn, gpr m -> is_insn i ByteReverse [D d; M m; Wid w; Sgn sgn] ->
  aexecute py i = (i, Err (if negb ((w =? 2) || (w =? 4)) && (15 <? d) then KeyError else TypeError)).
Proof. exact C99_alone_reverse_proof. Qed.
Print Assumptions C99_alone_reverse.

Example C99_alone_reverse_ex : map (fun '(d, w) => snd (aexecute Py3 (an_insn ByteReverse [D d; M 1; Wid w; Sgn false] true))) [(16, 2); (16, 4); (16, 8); (0, 8)] =
  [Err TypeError; Err TypeError; Err KeyError; Err TypeError].
Proof. vm_compute. reflexivity. Qed.
