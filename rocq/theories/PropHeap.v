(** Property statements; each is proved in HeapThms.v under the same name.
    Written by tools/genprops.py. *)
From Coq Require Import ZArith List String Bool Lia.
From Verif Require Import HeapModel SpecBits SpecArm SpecHeap HeapThms.
Local Open Scope Z_scope.

(** C78: the expression [x op y] changes no existing object, whether or not [x] and [y]
are the same one, and its value is a new object; if it raises, nothing has changed either. *)
Theorem C78_expression : forall op h x o, heap_ok h -> live h x -> live_val h o ->
  match value_of op (hget h x) (hread h o) with
  | Ok b => exists h' r, h_method op x o h = (h', Ok r) /\ hget h' r = b /\ live h' r /\ ~ live h r /\ untouched h h'
  | Err e => exists h', h_method op x o h = (h', Err e) /\ untouched h h'
  end.
Proof. exact C78_expression_proof. Qed.
Print Assumptions C78_expression.

Example C78_expression_ex : forall h' r, h_method IMod 0%nat (HRef 0%nat) [bits 2 3] = (h', Ok r) ->
  hget h' r = bits 4 15 /\ hget h' 0%nat = bits 2 3.
Proof. intros h' r E. vm_compute in E. inversion E. split; reflexivity. Qed.

(** C79: the statement [x op= y] leaves in the object [x] the value of the expression
[x op y], keeps the name bound to that object and changes no other; if it raises, [x] is
unchanged.  With an operand the method does not support the name gets a copy of [x].  The
only case left out is [x %= x]. *)
Theorem C79_assignment : forall op h x o, heap_ok h -> live h x -> live_val h o -> (op = IMod -> o <> HRef x) ->
  match value_of op (hget h x) (hread h o) with
  | Ok b =>
    if unsupported op o
    then exists h' r, h_assign op x o h = (h', Ok r) /\ b = hget h x /\ hget h' r = b /\ ~ live h r /\ untouched h h'
    else exists h', h_assign op x o h = (h', Ok x) /\ hget h' x = b /\ only x h h'
  | Err e => exists h', h_assign op x o h = (h', Err e) /\ untouched h h'
  end.
Proof. exact C79_assignment_proof. Qed.
Print Assumptions C79_assignment.

Example C79_assignment_ex : h_assign ISub 1%nat (HRef 1%nat) [bits 8 7; bits 8 9] = ([bits 8 7; bits 8 0], Ok 1%nat).
Proof. vm_compute. reflexivity. Qed.

(** C79, [x %= x] exactly: the width of the right side is read after it was doubled, so
the value is shifted twice as far as it should be and does not fit. *)
Theorem C79_double : forall h x, heap_ok h -> live h x ->
  let b := hget h x in
  exists h', h_assign IMod x (HRef x) h = (h', Ok x) /\ only x h h' /\
    hget h' x = mkbs (2 * bw b) (bv b * 2 ^ (2 * bw b) + bv b) (2 ^ (2 * bw b) - 1) /\
    (wf (hget h' x) <-> bv b = 0).
Proof. exact C79_double_proof. Qed.
Print Assumptions C79_double.

Example C79_double_ex : h_assign IMod 0%nat (HRef 0%nat) [bits 2 1] = ([mkbs 4 17 15], Ok 0%nat).
Proof. vm_compute. reflexivity. Qed.

Theorem C79_double_refuted : exists h x b h', heap_ok h /\ live h x /\
  value_of IMod (hget h x) (VBits (hget h x)) = Ok b /\
  h_assign IMod x (HRef x) h = (h', Ok x) /\ hget h' x <> b /\ ~ wf (hget h' x).
Proof. exact C79_double_refuted_proof. Qed.
Print Assumptions C79_double_refuted.

(** C78: [~x] and [x.invert()] change [x] itself, to its complement, and return [x];
[x.reverse()] likewise; no other object changes. *)
Theorem C78_invert : forall h x, heap_ok h -> live h x ->
  exists h', h_invert x h = (h', Ok x) /\ only x h h' /\
    hget h' x = bits (bw (hget h x)) (2 ^ bw (hget h x) - 1 - bv (hget h x)).
Proof. exact C78_invert_proof. Qed.
Print Assumptions C78_invert.

Example C78_invert_ex : h_invert 0%nat [bits 4 5; bits 4 6] = ([bits 4 10; bits 4 6; bits 4 10], Ok 0%nat).
Proof. vm_compute. reflexivity. Qed.

Theorem C78_reverse : forall h x, heap_ok h -> live h x ->
  match bs_reversed (hget h x) with
  | Ok b => exists h', h_reverse x h = (h', Ok x) /\ only x h h' /\ hget h' x = b
  | Err e => h_reverse x h = (h, Err e)
  end.
Proof. exact C78_reverse_proof. Qed.
Print Assumptions C78_reverse.

Example C78_reverse_ex : exists h', h_reverse 1%nat [bits 4 5; bits 4 1] = (h', Ok 1%nat) /\ hget h' 1%nat = bits 4 8.
Proof. eexists. split; vm_compute; reflexivity. Qed.

(** C78: reading [x.signed] gives the two's complement value the first time, but a
negative [x] has become its own complement; nothing else changes. *)
Theorem C78_signed : forall h x, heap_ok h -> live h x ->
  exists h' z b, h_signed x h = (h', Ok z) /\ bs_signed (hget h x) = Ok (b, z) /\ hget h' x = b /\ only x h h'.
Proof. exact C78_signed_proof. Qed.
Print Assumptions C78_signed.

Example C78_signed_ex : exists h', h_signed 0%nat [bits 4 14] = (h', Ok (-2)) /\ hget h' 0%nat = bits 4 1.
Proof. eexists. split; vm_compute; reflexivity. Qed.

(** C78: [sign_extend] and [zero_extend] to the present width return the object itself, to
a greater width a new one, to a smaller one ValueError; they change nothing. *)
Theorem C78_extend : forall h x w, heap_ok h -> live h x ->
  (w < bw (hget h x) -> h_zero_extend x w h = (h, Err ValueError) /\ h_sign_extend x w h = (h, Err ValueError)) /\
  (w = bw (hget h x) -> h_zero_extend x w h = (h, Ok x) /\ h_sign_extend x w h = (h, Ok x)) /\
  (bw (hget h x) < w ->
    (exists h' r, h_zero_extend x w h = (h', Ok r) /\ ~ live h r /\ untouched h h' /\
       bs_zero_extend (hget h x) w = Ok (hget h' r)) /\
    match bs_sign_extend (hget h x) w with
    | Ok b => exists h' r, h_sign_extend x w h = (h', Ok r) /\ ~ live h r /\ untouched h h' /\ hget h' r = b
    | Err e => h_sign_extend x w h = (h, Err e)
    end).
Proof. exact C78_extend_proof. Qed.
Print Assumptions C78_extend.

Example C78_extend_ex : h_zero_extend 0%nat 4 [bits 4 5] = ([bits 4 5], Ok 0%nat) /\
  h_sign_extend 0%nat 8 [bits 4 9] = ([bits 4 9; bits 8 0xf9], Ok 1%nat).
Proof. split; reflexivity. Qed.

(** ... so changing the result of an extension to the same width changes the original. *)
Theorem C78_extend_shares : forall op h x o, heap_ok h -> live h x -> live_val h o -> (op = IMod -> o <> HRef x) ->
  unsupported op o = false ->
  forall b, value_of op (hget h x) (hread h o) = Ok b ->
  exists h', (hdo y <- h_zero_extend x (bw (hget h x)); h_assign op y o) h = (h', Ok x) /\ hget h' x = b.
Proof. exact C78_extend_shares_proof. Qed.
Print Assumptions C78_extend_shares.

Example C78_extend_shares_ex : (hdo y <- h_zero_extend 0%nat 8; h_assign IAdd y (HVal (VInt 1))) [bits 8 41] =
  ([bits 8 42], Ok 0%nat).
Proof. vm_compute. reflexivity. Qed.

(** C79: item assignment from another object (or an int, a text) changes [x] as the model
of item assignment on values says, and nothing else; if it raises, nothing changes. *)
Theorem C79_setitem : forall h x k o, heap_ok h -> live h x -> live_val h o -> o <> HRef x \/ (exists i, k = KInt i) ->
  match bs_setitem (hget h x) k (hread h o) with
  | Ok b => exists h', h_setitem x k o h = (h', Ok tt) /\ hget h' x = b /\ only x h h'
  | Err e => exists h', h_setitem x k o h = (h', Err e) /\ untouched h h'
  end.
Proof. exact C79_setitem_proof. Qed.
Print Assumptions C79_setitem.

Example C79_setitem_ex : h_setitem 0%nat (KSlice (sl 4 8)) (HRef 1%nat) [bits 8 0x12; bits 4 0xf] =
  ([bits 8 0xf2; bits 4 0xf], Ok tt).
Proof. vm_compute. reflexivity. Qed.

(** C79 does not hold of [x[start:stop] = x]: the bits are cleared before they are read, so
a bit of the slice is copied only if its source lies below the slice. *)
Theorem C79_slice_self : forall h x s start stop, heap_ok h -> live h x ->
  slice_bounds s (bw (hget h x)) = Some (start, stop, 1) -> start <= stop ->
  exists h', h_setitem x (KSlice s) (HRef x) h = (h', Ok tt) /\ only x h h' /\
    bw (hget h' x) = bw (hget h x) /\
    forall j, 0 <= j < bw (hget h x) ->
      bit (hget h' x) j =
        if (start <=? j) && (j <? stop) then (j - start <? start) && bit (hget h x) (j - start)
        else bit (hget h x) j.
Proof. exact C79_slice_self_proof. Qed.
Print Assumptions C79_slice_self.

Example C79_slice_self_ex : h_setitem 0%nat (KSlice (sl 4 8)) (HRef 0%nat) [bits 8 0x12] = ([bits 8 0x22], Ok tt).
Proof. vm_compute. reflexivity. Qed.

Theorem C79_slice_self_refuted : exists h x k b h', heap_ok h /\ live h x /\
  bs_setitem (hget h x) k (VBits (hget h x)) = Ok b /\
  h_setitem x k (HRef x) h = (h', Ok tt) /\ hget h' x <> b.
Proof. exact C79_slice_self_refuted_proof. Qed.
Print Assumptions C79_slice_self_refuted.

(** C80: AddWithCarry on three different objects computes what the model of it on values
computes, for the result, the flags and what becomes of the operands. *)
Theorem C80_distinct : forall h x y c, heap_ok h -> live h x -> live h y -> live h c ->
  x <> y -> x <> c -> y <> c ->
  match AddWithCarry (hget h x) (hget h y) (hget h c) with
  | Ok ((bx, by_), (b, co, v)) => exists h' r,
      h_AddWithCarry x y c h = (h', Ok (r, bv co, bv v)) /\ ~ live h r /\
      hget h' x = bx /\ hget h' y = by_ /\ hget h' r = b /\
      (forall s, live h s -> s <> x -> s <> y -> hget h' s = hget h s)
  | Err e => h_AddWithCarry x y c h = (h, Err e)
  end.
Proof. exact C80_distinct_proof. Qed.
Print Assumptions C80_distinct.

Example C80_distinct_ex : exists h', h_AddWithCarry 0%nat 1%nat 2%nat [bits 8 127; bits 8 1; bits 1 0] = (h', Ok (3%nat, 0, 1)).
Proof. eexists. vm_compute. reflexivity. Qed.

(** C80: AddWithCarry of an object with itself.  If it is not negative, nothing is special;
if it is, the first reading of [signed] complements it, the second reads the complement, and
the signed sum is one less than the carry, whatever the object is. *)
Theorem C80_same : forall h x c, heap_ok h -> live h x -> live h c -> x <> c -> 2 <= bw (hget h x) ->
  let w := bw (hget h x) in
  let v := bv (hget h x) in
  let sum := v + v + bv (hget h c) in
  let signed_sum := if v <? 2 ^ (w - 1) then v + v + bv (hget h c) else bv (hget h c) - 1 in
  exists h' r,
    h_AddWithCarry x x c h = (h', Ok (r, (if sum mod 2 ^ w =? sum then 0 else 1), (if twos w sum =? signed_sum then 0 else 1))) /\
    ~ live h r /\
    hget h' x = (if v <? 2 ^ (w - 1) then hget h x else bits w (2 ^ w - 1 - v)) /\
    hget h' r = (if sum mod 2 ^ w <? 2 ^ (w - 1) then bits w sum else bits w (2 ^ w - 1 - sum mod 2 ^ w)) /\
    (forall s, live h s -> s <> x -> hget h' s = hget h s).
Proof. exact C80_same_proof. Qed.
Print Assumptions C80_same.

Example C80_same_ex : exists h', h_AddWithCarry 0%nat 0%nat 1%nat [bits 8 3; bits 1 1] = (h', Ok (2%nat, 0, 0)) /\ hget h' 2%nat = bits 8 7.
Proof. eexists. split; vm_compute; reflexivity. Qed.

(** ... so -1 + -1 is reported as a signed overflow. *)
Theorem C80_same_refuted : exists h x c h' r, heap_ok h /\ live h x /\ live h c /\
  hget h x = bits 32 (-1) /\ hget h c = bits 1 0 /\
  h_AddWithCarry x x c h = (h', Ok (r, 1, 1)) /\
  exists q, AddWithCarry (hget h x) (hget h x) (hget h c) = Ok (q, (hget h' r, bit1, bit0)).
Proof. exact C80_same_refuted_proof. Qed.
Print Assumptions C80_same_refuted.
