(** Property statements; each is proved in BitThms.v under the same name.
    Written by tools/genprops.py. *)
From Verif Require Import BitstringModel SpecBits BitThms.

(** C01.  From construction on, after any sequence of statements that all
succeed, the value fits the width and the mask is that of the width. *)
Theorem C01_range : forall v w b0 ops b,
  bs_init v w = Ok b0 -> Forall (fun o => wf_val (bop_val o)) ops ->
  do_ops ops b0 = (b, None) ->
  0 <= bw b /\ 0 <= bv b < 2 ^ bw b /\ bm b = 2 ^ bw b - 1.
Proof. exact C01_range_proof. Qed.
Print Assumptions C01_range.

Example C01_range_ex :
  exists b0 b, bs_init (VInt 200) (Some 8) = Ok b0 /\
  do_ops [OAdd (VInt 100); OCat (VStr "101"); OSetItem (KInt (-1)) (VInt 1); OSigned; OShl (VInt 3)] b0
    = (b, None) /\ bw b = 11 /\ bv b = 1232.
Proof. do 2 eexists. split; [reflexivity|]. split; [vm_compute; reflexivity|split; reflexivity]. Qed.

(** C01, with failures: an object is also well formed after a statement has
raised, unless that statement assigned the width. *)
Theorem C01_range_after_error : forall v w b0 ops b e,
  bs_init v w = Ok b0 -> Forall (fun o => wf_val (bop_val o)) ops ->
  (forall n, ~ In (OSetWidth n) ops) -> do_ops ops b0 = (b, e) -> wf b.
Proof. exact C01_range_after_error_proof. Qed.
Print Assumptions C01_range_after_error.

Example C01_range_after_error_ex :
  exists b0 b, bs_init (VStr "1010") None = Ok b0 /\
  do_ops [OFloorDiv (VInt 3); OSetItem (KInt 9) (VInt 1); OInvert] b0 = (b, Some IndexError) /\ bv b = 3.
Proof. do 2 eexists. split; [reflexivity|]. split; [vm_compute; reflexivity|reflexivity]. Qed.

(** C01/C05: a statement that raises leaves the object as it was (width
assignment aside). *)
Theorem C01_failure_unchanged : forall o b b' e,
  do_op o b = (b', Some e) -> (forall w, o <> OSetWidth w) -> b' = b.
Proof. exact C01_failure_unchanged_proof. Qed.
Print Assumptions C01_failure_unchanged.

Example C01_failure_unchanged_ex :
  do_op (OFloorDiv (VInt 0)) (bits 8 77) = (bits 8 77, Some ZeroDivisionError).
Proof. vm_compute. reflexivity. Qed.

(** C01 fails for a width assignment that raises: the object keeps the
negative width (bitstring.py:104-106). *)
Theorem C01_width_setter_refuted : exists b w b' e,
  wf b /\ do_op (OSetWidth w) b = (b', Some e) /\ ~ wf b'.
Proof. exact C01_width_setter_refuted_proof. Qed.
Print Assumptions C01_width_setter_refuted.

(** Assigning [value] or a non-negative [width] truncates to the width. *)
Theorem C01_setters : forall b z w, wf b -> 0 <= w ->
  bs_set_value b z = bits (bw b) z /\ bs_set_width b w = (bits w (bv b), Ok tt).
Proof. exact C01_setters_proof. Qed.
Print Assumptions C01_setters.

Example C01_setters_ex : bs_set_width (bits 8 200) 4 = (bits 4 8, Ok tt).
Proof. reflexivity. Qed.

(** C02.  Integer, binary-text and bitstring right operands. *)
Theorem C02_arith : forall a o z, wf a -> means o z ->
  bs_add a o = Ok (bits (bw a) (bv a + z)) /\
  bs_sub a o = Ok (bits (bw a) (bv a - z)) /\
  bs_mul a o = Ok (bits (bw a) (bv a * z)) /\
  (z <> 0 -> bs_floordiv a o = Ok (bits (bw a) (bv a / z))) /\
  (z = 0 -> bs_floordiv a o = Err ZeroDivisionError).
Proof. exact C02_arith_proof. Qed.
Print Assumptions C02_arith.

Example C02_arith_ex : wf (bits 8 200) /\ means (VStr "1100100") 100 /\
  bs_add (bits 8 200) (VStr "1100100") = Ok (bits 8 44) /\
  bs_sub (bits 8 44) (VBits (bits 16 200)) = Ok (bits 8 100) /\
  bs_floordiv (bits 8 200) (VInt (-3)) = Ok (bits 8 189).
Proof.
  split; [vm_compute; intuition congruence|]. split.
  - replace 100 with (be_number 2 (text_bits "1100100")) by reflexivity. constructor.
    split; [discriminate|]. cbn [chars].
    do 7 (apply Forall_cons; [first [left; reflexivity|right; reflexivity]|]). apply Forall_nil.
  - repeat split.
Qed.

(** C02, any other text: the operand is first converted by the constructor,
whose failure is the failure of the operation. *)
Theorem C02_text : forall a s, wf a ->
  match bs_init (VStr s) None with
  | Ok b => bs_add a (VStr s) = bs_add a (VBits b) /\ bs_sub a (VStr s) = bs_sub a (VBits b) /\
            bs_mul a (VStr s) = bs_mul a (VBits b) /\ bs_floordiv a (VStr s) = bs_floordiv a (VBits b)
  | Err e => bs_add a (VStr s) = Err e /\ bs_sub a (VStr s) = Err e /\
             bs_mul a (VStr s) = Err e /\ bs_floordiv a (VStr s) = Err e
  end.
Proof. exact C02_text_proof. Qed.
Print Assumptions C02_text.

Example C02_text_ex : bs_add (bits 8 1) (VStr "12") = Err ValueError.
Proof. reflexivity. Qed.

(** C02: an operand of an unsupported type is ignored, a copy of the left
operand is returned (bitstring.py:328-330: the NotImplemented is dropped). *)
Theorem C02_unsupported : forall a o, wf a ->
  o = VNone \/ o = VOther \/ (exists l, o = VSeq l) \/ (exists py l, o = VBytearray py l) ->
  bs_add a o = Ok a /\ bs_sub a o = Ok a /\ bs_mul a o = Ok a /\ bs_floordiv a o = Ok a.
Proof. exact C02_unsupported_proof. Qed.
Print Assumptions C02_unsupported.

Example C02_unsupported_ex : bs_add (bits 8 7) VOther = Ok (bits 8 7).
Proof. reflexivity. Qed.

(** C02, reflected: with an int on the left the result has the width the
constructor gives that int. *)
Theorem C02_reflected : forall b n, wf b ->
  let w := if 2 ^ 32 <? n then 64 else 32 in let m := n mod 2 ^ w in
  bs_radd b (VInt n) = Ok (bits w (m + bv b)) /\
  bs_rsub b (VInt n) = Ok (bits w (m - bv b)) /\
  bs_rmul b (VInt n) = Ok (bits w (m * bv b)) /\
  bs_rfloordiv b (VInt n) = (if bv b =? 0 then Err ZeroDivisionError else Ok (bits w (m / bv b))) /\
  bs_rand b (VInt n) = Ok (bits w (Z.land m (bv b))) /\
  bs_ror b (VInt n) = Ok (bits (Z.max w (bw b)) (Z.lor m (bv b))) /\
  bs_rxor b (VInt n) = Ok (bits (Z.max w (bw b)) (Z.lxor m (bv b))) /\
  bs_rmod b (VInt n) = Ok (bits (w + bw b) (m * 2 ^ bw b + bv b)).
Proof. exact C02_reflected_proof. Qed.
Print Assumptions C02_reflected.

Example C02_reflected_ex : bs_rsub (bits 8 5) (VInt 3) = Ok (bits 32 4294967294).
Proof. reflexivity. Qed.

(** C03. *)
Theorem C03_concat : forall a b, wf a -> wf b ->
  exists r, bs_mod a (VBits b) = Ok r /\ wf r /\ bw r = bw a + bw b /\
    bv r = bv a * 2 ^ bw b + bv b /\
    forall i, 0 <= i -> bit r i = if i <? bw b then bit b i else bit a (i - bw b).
Proof. exact C03_concat_proof. Qed.
Print Assumptions C03_concat.

Example C03_concat_ex : bs_mod (bits 3 5) (VBits (bits 4 2)) = Ok (bits 7 82).
Proof. reflexivity. Qed.

Theorem C03_assoc_unit : forall a b c, wf a -> wf b -> wf c ->
  (forall ab bc, bs_mod a (VBits b) = Ok ab -> bs_mod b (VBits c) = Ok bc ->
     bs_mod ab (VBits c) = bs_mod a (VBits bc)) /\
  (exists e, bs_init VNone None = Ok e /\ bs_mod a (VBits e) = Ok a /\ bs_mod e (VBits a) = Ok a).
Proof. exact C03_assoc_unit_proof. Qed.
Print Assumptions C03_assoc_unit.

Example C03_assoc_unit_ex : exists ab bc,
  bs_mod (bits 2 3) (VBits (bits 3 1)) = Ok ab /\ bs_mod (bits 3 1) (VBits (bits 1 1)) = Ok bc /\
  bs_mod ab (VBits (bits 1 1)) = Ok (bits 6 51).
Proof. do 2 eexists. repeat split; reflexivity. Qed.

(** C03, other right operands. *)
Theorem C03_operands : forall a, wf a ->
  (forall s b, bs_init (VStr s) None = Ok b -> bs_mod a (VStr s) = bs_mod a (VBits b)) /\
  (forall l b, bs_init (VSeq l) None = Ok b -> bs_mod a (VSeq l) = bs_mod a (VBits b)) /\
  (forall z, z = 0 \/ z = 1 -> bs_mod a (VInt z) = bs_mod a (VBits (bits 1 z))) /\
  (forall z, z <> 0 -> z <> 1 -> bs_mod a (VInt z) = Err ValueError) /\
  bs_mod a VNone = Ok a /\ bs_mod a VOther = Ok a.
Proof. exact C03_operands_proof. Qed.
Print Assumptions C03_operands.

Example C03_operands_ex : bs_mod (bits 3 5) (VSeq [1;0;1;1]) = Ok (bits 7 91) /\
  bs_mod (bits 3 5) (VInt 2) = Err ValueError.
Proof. split; reflexivity. Qed.

(** C04.  Any slice: one result bit per selected position, in order. *)
Theorem C04_slice : forall b s, wf b ->
  match slice_bounds s (bw b) with
  | None => bs_getitem b (KSlice s) = Err ValueError
  | Some (start, stop, step) =>
    exists r, bs_getitem b (KSlice s) = Ok r /\ wf r /\
      bw r = Z.of_nat (List.length (range_list start stop step)) /\
      (forall k, (k < List.length (range_list start stop step))%nat ->
         0 <= nth k (range_list start stop step) 0 < bw b /\
         bit r (Z.of_nat k) = bit b (nth k (range_list start stop step) 0))
  end.
Proof. exact C04_slice_proof. Qed.
Print Assumptions C04_slice.

Example C04_slice_ex :
  slice_bounds (mkslice None (Some (-5)) (Some (-2))) 8 = Some (7, 3, -2) /\
  range_list 7 3 (-2) = [7; 5] /\
  bs_getitem (bits 8 160) (KSlice (mkslice None (Some (-5)) (Some (-2)))) = Ok (bits 2 3).
Proof. repeat split; reflexivity. Qed.

Theorem C04_simple_slice : forall x a b, wf x -> 0 <= a <= b -> b <= bw x ->
  bs_getitem x (KSlice (sl a b)) = Ok (bits (b - a) (bv x / 2 ^ a)).
Proof. exact C04_simple_slice_proof. Qed.
Print Assumptions C04_simple_slice.

Example C04_simple_slice_ex : bs_getitem (bits 16 0xabcd) (KSlice (sl 4 12)) = Ok (bits 8 0xbc).
Proof. reflexivity. Qed.

(** C04, one bit.  Note that an index at or above the width reads 0. *)
Theorem C04_index : forall b i, wf b ->
  (0 <= i -> bs_getitem b (KInt i) = Ok (bits 1 (if bit b i then 1 else 0))) /\
  (- bw b <= i < 0 -> bs_getitem b (KInt i) = Ok (bits 1 (if bit b (bw b + i) then 1 else 0))) /\
  (i < - bw b -> bs_getitem b (KInt i) = Err ValueError) /\
  (bw b <= i -> bs_getitem b (KInt i) = Ok (bits 1 0)) /\
  (0 <= i -> bs_get_bit_value b i = Ok (if bit b i then 1 else 0)) /\
  (i < 0 -> bs_get_bit_value b i = Err ValueError).
Proof. exact C04_index_proof. Qed.
Print Assumptions C04_index.

Example C04_index_ex : bs_getitem (bits 8 64) (KInt (-2)) = Ok (bits 1 1).
Proof. reflexivity. Qed.

(** C04, an index that is neither a number nor a slice. *)
Theorem C04_bad_index : forall b, bs_getitem b KOther = Err TypeError.
Proof. exact C04_bad_index_proof. Qed.
Print Assumptions C04_bad_index.

Example C04_bad_index_ex : bs_getitem (bits 8 64) KOther = Err TypeError /\ bs_getitem (bits 8 64) (KInt 6) = Ok (bits 1 1).
Proof. split; reflexivity. Qed.

(** C05, single bits. *)
Theorem C05_bit : forall b i value z, wf b -> - bw b <= i < bw b ->
  value = VInt z \/ value = VBits (mkbs 1 z 1) ->
  exists r, bs_setitem b (KInt i) value = Ok r /\ wf r /\ bw r = bw b /\
    forall j, 0 <= j < bw b ->
      bit r j = if j =? from_end (bw b) i then Z.odd z else bit b j.
Proof. exact C05_bit_proof. Qed.
Print Assumptions C05_bit.

Example C05_bit_ex : bs_setitem (bits 8 0) (KInt (-1)) (VInt 3) = Ok (bits 8 128).
Proof. reflexivity. Qed.

(** C05, failures (the object is then unchanged: C01_failure_unchanged). *)
Theorem C05_bit_errors : forall b i value, wf b ->
  (bw b <= i -> bs_setitem b (KInt i) value = Err IndexError) /\
  (i < bw b -> (value = VNone \/ value = VOther \/ (exists s, value = VStr s)) ->
     bs_setitem b (KInt i) value = Err TypeError) /\
  (i < bw b -> (exists x, value = VBits x /\ bw x <> 1) -> bs_setitem b (KInt i) value = Err ValueError) /\
  (i < - bw b -> (exists z, value = VInt z) -> bs_setitem b (KInt i) value = Err ValueError) /\
  bs_setitem b KOther value = Err TypeError.
Proof. exact C05_bit_errors_proof. Qed.
Print Assumptions C05_bit_errors.

Example C05_bit_errors_ex : bs_setitem (bits 8 0) (KInt 8) (VInt 1) = Err IndexError /\
  bs_setitem (bits 8 0) (KInt (-9)) (VInt 1) = Err ValueError.
Proof. split; reflexivity. Qed.

(** C05, slices.  [x] is the value assigned; an int is first cut to 32 bits
(64 when above 2^32), see C05_slice_int. *)
Theorem C05_slice : forall b s value x start stop, wf b ->
  (value = VBits x \/ (exists t, value = VStr t /\ bs_init (VStr t) None = Ok x)) ->
  slice_bounds s (bw b) = Some (start, stop, 1) -> start <= stop ->
  exists r, bs_setitem b (KSlice s) value = Ok r /\ wf r /\ bw r = bw b /\
    forall j, 0 <= j < bw b ->
      bit r j = if (start <=? j) && (j <? stop) then bit x (j - start) else bit b j.
Proof. exact C05_slice_proof. Qed.
Print Assumptions C05_slice.

Example C05_slice_ex : bs_setitem (bits 16 0xffff) (KSlice (sl 4 12)) (VStr "01010101") = Ok (bits 16 0xf55f).
Proof. reflexivity. Qed.

Theorem C05_slice_int : forall b s z start stop, wf b ->
  slice_bounds s (bw b) = Some (start, stop, 1) -> start <= stop ->
  exists r, bs_setitem b (KSlice s) (VInt z) = Ok r /\ wf r /\ bw r = bw b /\
    forall j, 0 <= j < bw b ->
      bit r j = if (start <=? j) && (j <? stop)
                then (j - start <? (if 2 ^ 32 <? z then 64 else 32)) && Z.testbit z (j - start)
                else bit b j.
Proof. exact C05_slice_int_proof. Qed.
Print Assumptions C05_slice_int.

Example C05_slice_int_ex : bs_setitem (bits 8 0) (KSlice (sl 1 4)) (VInt (-1)) = Ok (bits 8 14).
Proof. reflexivity. Qed.

(** C05: with a wide slice an int is truncated, so the slice does not read
back as the low bits of the value. *)
Theorem C05_slice_int_refuted : exists b z r, wf b /\
  bs_setitem b (KSlice (sl 0 (bw b))) (VInt z) = Ok r /\ 0 <= z < 2 ^ bw b /\ bv r <> z.
Proof. exact C05_slice_int_refuted_proof. Qed.
Print Assumptions C05_slice_int_refuted.

Theorem C05_slice_errors : forall b s value start stop step, wf b ->
  slice_bounds s (bw b) = Some (start, stop, step) ->
  (step <> 1 -> bs_setitem b (KSlice s) value = Err ValueError) /\
  (step = 1 -> (value = VNone \/ value = VOther \/ (exists l, value = VSeq l)) ->
     bs_setitem b (KSlice s) value = Err TypeError) /\
  (step = 1 -> stop < start -> (exists x, value = VBits x) \/ (exists z, value = VInt z) ->
     bs_setitem b (KSlice s) value = Err ValueError).
Proof. exact C05_slice_errors_proof. Qed.
Print Assumptions C05_slice_errors.

Example C05_slice_errors_ex :
  bs_setitem (bits 8 0) (KSlice (sl 5 2)) (VInt 0) = Err ValueError /\
  bs_setitem (bits 8 0) (KSlice (mkslice None None (Some 2))) (VInt 0) = Err ValueError.
Proof. split; reflexivity. Qed.

(** C06. *)
Theorem C06_signed : forall b, wf b -> 2 <= bw b ->
  exists b' z, bs_signed b = Ok (b', z) /\
    - 2 ^ (bw b - 1) <= z < 2 ^ (bw b - 1) /\ z mod 2 ^ bw b = bv b /\
    forall z', - 2 ^ (bw b - 1) <= z' < 2 ^ (bw b - 1) -> z' mod 2 ^ bw b = bv b -> z' = z.
Proof. exact C06_signed_proof. Qed.
Print Assumptions C06_signed.

Example C06_signed_ex : exists b', bs_signed (bits 8 0xfe) = Ok (b', -2).
Proof. eexists. vm_compute. reflexivity. Qed.

(** C06, widths 0 and 1: always 0. *)
Theorem C06_signed_short : forall b, bw b < 2 -> bs_signed b = Ok (b, 0).
Proof. exact C06_signed_short_proof. Qed.
Print Assumptions C06_signed_short.

Example C06_signed_short_ex : bs_signed (bits 1 1) = Ok (bits 1 1, 0).
Proof. reflexivity. Qed.

(** C07 fails: reading [signed] of a negative number inverts the object, and
so does comparing it with a negative int; [~x] inverts x. *)
Theorem C07_observe_refuted : exists b b' z, wf b /\ bs_signed b = Ok (b', z) /\ bv b' <> bv b.
Proof. exact C07_observe_refuted_proof. Qed.
Print Assumptions C07_observe_refuted.

Theorem C07_compare_refuted : exists b b' r z, wf b /\
  bs_eq b (VInt z) = Ok (b', r) /\ bv b' <> bv b.
Proof. exact C07_compare_refuted_proof. Qed.
Print Assumptions C07_compare_refuted.

(** C07, exactly: when [signed] changes the object, and into what. *)
Theorem C07_signed_effect : forall b, wf b ->
  exists z, bs_signed b = Ok (if (2 <=? bw b) && (2 ^ (bw b - 1) <=? bv b)
                              then bits (bw b) (2 ^ bw b - 1 - bv b) else b, z).
Proof. exact C07_signed_effect_proof. Qed.
Print Assumptions C07_signed_effect.

Example C07_signed_effect_ex : bs_signed (bits 8 0x7e) = Ok (bits 8 0x7e, 126) /\
  bs_signed (bits 8 0x81) = Ok (bits 8 0x7e, -127).
Proof. split; reflexivity. Qed.

(** C07, the true part: comparing with anything but a negative int leaves
the object alone, and so does [inverted]; [~x] and [invert] do not. *)
Theorem C07_compare_pure : forall b v,
  (forall z, v = VInt z -> 0 <= z) ->
  (forall b' r, bs_eq b v = Ok (b', r) -> b' = b) /\
  (forall b' r, bs_ne b v = Ok (b', r) -> b' = b) /\
  (forall b' r, bs_lt b v = Ok (b', r) -> b' = b) /\
  (forall b' r, bs_le b v = Ok (b', r) -> b' = b) /\
  (forall b' r, bs_gt b v = Ok (b', r) -> b' = b) /\
  (forall b' r, bs_ge b v = Ok (b', r) -> b' = b).
Proof. exact C07_compare_pure_proof. Qed.
Print Assumptions C07_compare_pure.

Example C07_compare_pure_ex : bs_le (bits 8 0xfe) (VInt 255) = Ok (bits 8 0xfe, true).
Proof. reflexivity. Qed.

(** C08, between bitstrings. *)
Theorem C08_order : forall a b, wf a -> wf b ->
  (exists r, bs_eq a (VBits b) = Ok (a, r) /\ (r = true <-> bw a = bw b /\ bv a = bv b)) /\
  (exists r, bs_ne a (VBits b) = Ok (a, r) /\ (r = true <-> ~ (bw a = bw b /\ bv a = bv b))) /\
  (exists r, bs_lt a (VBits b) = Ok (a, r) /\ (r = true <-> bv a < bv b \/ (bv a = bv b /\ bw a < bw b))) /\
  (exists r, bs_le a (VBits b) = Ok (a, r) /\ (r = true <-> bv a < bv b \/ (bv a = bv b /\ bw a <= bw b))) /\
  (exists r, bs_gt a (VBits b) = Ok (a, r) /\ (r = true <-> bv b < bv a \/ (bv b = bv a /\ bw b < bw a))) /\
  (exists r, bs_ge a (VBits b) = Ok (a, r) /\ (r = true <-> bv b < bv a \/ (bv b = bv a /\ bw b <= bw a))).
Proof. exact C08_order_proof. Qed.
Print Assumptions C08_order.

Example C08_order_ex : bs_lt (bits 4 5) (VBits (bits 8 5)) = Ok (bits 4 5, true) /\
  bs_ge (bits 4 5) (VBits (bits 8 5)) = Ok (bits 4 5, false).
Proof. split; reflexivity. Qed.

(** C08: equal objects print (hence hash) the same, and only equal ones do. *)
Theorem C08_repr : forall a b, wf a -> wf b ->
  (bs_repr a = bs_repr b <-> bw a = bw b /\ bv a = bv b).
Proof. exact C08_repr_proof. Qed.
Print Assumptions C08_repr.

Example C08_repr_ex : bs_repr (bits 4 5) = "4'b0101"%string /\ bs_repr (bits 5 5) = "5'b00101"%string.
Proof. split; reflexivity. Qed.

(** C08, against ints and text. *)
Theorem C08_int : forall a z, wf a ->
  (0 <= z -> bs_eq a (VInt z) = Ok (a, bv a =? z) /\ bs_ne a (VInt z) = Ok (a, negb (bv a =? z)) /\
             bs_lt a (VInt z) = Ok (a, bv a <? z) /\ bs_le a (VInt z) = Ok (a, bv a <=? z) /\
             bs_gt a (VInt z) = Ok (a, z <? bv a) /\ bs_ge a (VInt z) = Ok (a, z <=? bv a)) /\
  (z < 0 -> 2 <= bw a -> exists a',
     bs_eq a (VInt z) = Ok (a', twos (bw a) (bv a) =? z) /\
     bs_ne a (VInt z) = Ok (a', negb (twos (bw a) (bv a) =? z)) /\
     bs_lt a (VInt z) = Ok (a', twos (bw a) (bv a) <? z) /\
     bs_ge a (VInt z) = Ok (a', z <=? twos (bw a) (bv a))).
Proof. exact C08_int_proof. Qed.
Print Assumptions C08_int.

Example C08_int_ex : exists a', bs_lt (bits 8 0xfb) (VInt (-3)) = Ok (a', true).
Proof. eexists. vm_compute. reflexivity. Qed.

(** C08 fails for [<=] and [>] against negative ints: the equality test has
already inverted the object when [<] reads it (bitstring.py:179-183). *)
Theorem C08_le_negative_refuted : exists a z a', wf a /\ 2 <= bw a /\ z < 0 /\
  twos (bw a) (bv a) <= z /\ bs_le a (VInt z) = Ok (a', false) /\ bs_gt a (VInt z) = Ok (a', true).
Proof. exact C08_le_negative_refuted_proof. Qed.
Print Assumptions C08_le_negative_refuted.

(** ... they agree with the order exactly when the number is not below z. *)
Theorem C08_le_negative : forall a z, wf a -> 2 <= bw a -> z < 0 ->
  exists a', bs_le a (VInt z) = Ok (a', twos (bw a) (bv a) =? z) /\
             bs_gt a (VInt z) = Ok (a', negb (twos (bw a) (bv a) =? z)).
Proof. exact C08_le_negative_proof. Qed.
Print Assumptions C08_le_negative.

Example C08_le_negative_ex : exists a', bs_le (bits 8 0xfd) (VInt (-3)) = Ok (a', true).
Proof. eexists. vm_compute. reflexivity. Qed.

Theorem C08_text : forall a s,
  match bs_init (VStr s) None with
  | Ok b => bs_eq a (VStr s) = bs_eq a (VBits b) /\ bs_lt a (VStr s) = bs_lt a (VBits b) /\
            bs_ne a (VStr s) = bs_ne a (VBits b) /\ bs_le a (VStr s) = bs_le a (VBits b) /\
            bs_gt a (VStr s) = bs_gt a (VBits b) /\ bs_ge a (VStr s) = bs_ge a (VBits b)
  | Err e => bs_eq a (VStr s) = Err e /\ bs_lt a (VStr s) = Err e
  end.
Proof. exact C08_text_proof. Qed.
Print Assumptions C08_text.

Example C08_text_ex : bs_eq (bits 4 5) (VStr "0101") = Ok (bits 4 5, true) /\
  bs_eq (bits 4 5) (VStr "101") = Ok (bits 4 5, false).
Proof. split; reflexivity. Qed.

Theorem C08_other : forall a v, v = VNone \/ v = VOther \/ (exists l, v = VSeq l) \/ (exists py l, v = VBytearray py l) ->
  bs_eq a v = Ok (a, false) /\ bs_ne a v = Ok (a, false) /\ bs_lt a v = Err TypeError /\
  bs_le a v = Err TypeError /\ bs_gt a v = Ok (a, false) /\ bs_ge a v = Ok (a, false).
Proof. exact C08_other_proof. Qed.
Print Assumptions C08_other.

Example C08_other_ex : bs_eq (bits 1 1) VNone = Ok (bits 1 1, false).
Proof. reflexivity. Qed.

(** ... so [!=] is not the negation of [==] for operands of other types. *)
Theorem C08_ne_refuted : exists a v, bs_eq a v = Ok (a, false) /\ bs_ne a v = Ok (a, false).
Proof. exact C08_ne_refuted_proof. Qed.
Print Assumptions C08_ne_refuted.

(** C09. *)
Theorem C09_round_trip : forall b, wf b -> 1 <= bw b ->
  bs_init (VStr (bs_binary_string b)) None = Ok b.
Proof. exact C09_round_trip_proof. Qed.
Print Assumptions C09_round_trip.

Example C09_round_trip_ex : bs_binary_string (bits 5 9) = "01001"%string.
Proof. reflexivity. Qed.

Theorem C09_text_round_trip : forall s, bin_text s ->
  exists b, bs_init (VStr s) None = Ok b /\ wf b /\ bs_binary_string b = s /\ bw b = strlen s.
Proof. exact C09_text_round_trip_proof. Qed.
Print Assumptions C09_text_round_trip.

Example C09_text_round_trip_ex : bs_init (VStr "0011") None = Ok (bits 4 3).
Proof. reflexivity. Qed.

Theorem C09_characters : forall b, wf b ->
  strlen (bs_binary_string b) = bw b /\
  (forall i, 0 <= i < bw b ->
     nth (Z.to_nat (bw b - 1 - i)) (chars (bs_binary_string b)) "x"%char = (if bit b i then "1" else "0")%char) /\
  List.length (bs_iter b) = Z.to_nat (bw b) /\
  (forall i, 0 <= i < bw b -> nth (Z.to_nat i) (bs_iter b) 7 = if bit b i then 1 else 0) /\
  bs_binary_string (bits 0 0) = EmptyString.
Proof. exact C09_characters_proof. Qed.
Print Assumptions C09_characters.

Example C09_characters_ex : bs_iter (bits 5 9) = [1;0;0;1;0].
Proof. reflexivity. Qed.

(** C10. *)
Theorem C10_zero_extend : forall b w, wf b ->
  (bw b <= w -> exists r, bs_zero_extend b w = Ok r /\ wf r /\ bw r = w /\ bv r = bv b) /\
  (w < bw b -> bs_zero_extend b w = Err ValueError).
Proof. exact C10_zero_extend_proof. Qed.
Print Assumptions C10_zero_extend.

Example C10_zero_extend_ex : bs_zero_extend (bits 4 12) 8 = Ok (bits 8 12).
Proof. reflexivity. Qed.

Theorem C10_sign_extend : forall b w, wf b ->
  (1 <= bw b <= w -> exists r, bs_sign_extend b w = Ok r /\ wf r /\ bw r = w /\
     twos w (bv r) = twos (bw b) (bv b) /\
     (2 <= bw b -> exists b' r' z, bs_signed b = Ok (b', z) /\ bs_signed r = Ok (r', z))) /\
  (w < bw b -> bs_sign_extend b w = Err ValueError) /\
  (bw b = 0 -> 0 < w -> bs_sign_extend b w = Err ValueError).
Proof. exact C10_sign_extend_proof. Qed.
Print Assumptions C10_sign_extend.

Example C10_sign_extend_ex : bs_sign_extend (bits 4 12) 8 = Ok (bits 8 0xfc) /\
  bs_sign_extend (bits 4 4) 8 = Ok (bits 8 4).
Proof. split; reflexivity. Qed.

(** C11. *)
Theorem C11_invert : forall b, wf b ->
  exists r, bs_inverted b = Ok r /\ bs_invert b = Ok r /\ wf r /\ bw r = bw b /\
    (forall i, 0 <= i < bw b -> bit r i = negb (bit b i)) /\ bs_inverted r = Ok b.
Proof. exact C11_invert_proof. Qed.
Print Assumptions C11_invert.

Example C11_invert_ex : bs_inverted (bits 8 0x0f) = Ok (bits 8 0xf0).
Proof. reflexivity. Qed.

Theorem C11_reverse : forall b, wf b -> 1 <= bw b ->
  exists r, bs_reversed b = Ok r /\ bs_reverse b = Ok r /\ wf r /\ bw r = bw b /\
    (forall i, 0 <= i < bw b -> bit r i = bit b (bw b - 1 - i)) /\ bs_reversed r = Ok b.
Proof. exact C11_reverse_proof. Qed.
Print Assumptions C11_reverse.

Example C11_reverse_ex : bs_reversed (bits 8 0x13) = Ok (bits 8 0xc8).
Proof. reflexivity. Qed.

(** C11 fails for the empty bitstring: [int('', 2)] raises. *)
Theorem C11_reverse_empty_refuted : exists b, wf b /\ bs_reversed b = Err ValueError.
Proof. exact C11_reverse_empty_refuted_proof. Qed.
Print Assumptions C11_reverse_empty_refuted.

(** C12, integers: exact for all of 0 .. 2^64 - 1 except 2^32. *)
Theorem C12_int : forall n,
  (0 <= n < 2 ^ 32 -> bs_init (VInt n) None = Ok (mkbs 32 n (2 ^ 32 - 1))) /\
  (2 ^ 32 < n < 2 ^ 64 -> bs_init (VInt n) None = Ok (mkbs 64 n (2 ^ 64 - 1))) /\
  (n <= 2 ^ 32 -> bs_init (VInt n) None = Ok (bits 32 n)) /\
  (2 ^ 32 < n -> bs_init (VInt n) None = Ok (bits 64 n)).
Proof. exact C12_int_proof. Qed.
Print Assumptions C12_int.

Example C12_int_ex : bs_init (VInt (2 ^ 32 + 1)) None = Ok (mkbs 64 4294967297 (2 ^ 64 - 1)).
Proof. reflexivity. Qed.

Theorem C12_int_refuted : exists n b, 0 <= n < 2 ^ 64 /\ bs_init (VInt n) None = Ok b /\ bv b <> n.
Proof. exact C12_int_refuted_proof. Qed.
Print Assumptions C12_int_refuted.

(** C12, explicit width: the value modulo 2^width, for every kind of value. *)
Theorem C12_width : forall w, 0 <= w ->
  (forall n, bs_init (VInt n) (Some w) = Ok (bits w n)) /\
  (forall b, bs_init (VBits b) (Some w) = Ok (bits w (bv b))) /\
  (forall s, bin_text s -> bs_init (VStr s) (Some w) = Ok (bits w (be_number 2 (text_bits s)))) /\
  bs_init VNone (Some w) = Ok (bits w 0).
Proof. exact C12_width_proof. Qed.
Print Assumptions C12_width.

Example C12_width_ex : bs_init (VInt (-1)) (Some 5) = Ok (bits 5 31).
Proof. reflexivity. Qed.

(** C12: a negative width is a ValueError, whatever the value; a value that cannot be read
raises the same exception for all widths. *)
Theorem C12_errors :
  (forall w w' v b, w < 0 -> bs_init v (Some w') = Ok b -> bs_init v (Some w) = Err ValueError) /\
  (forall w w' v e, 0 <= w -> bs_init v (Some w) = Err e -> bs_init v (Some w') = Err e /\ bs_init v None = Err e) /\
  (forall w, bs_init VOther w = Err TypeError) /\
  (forall w, bs_init (VSeq []) w = Err TypeError) /\
  (forall w, bs_init (VStr EmptyString) w = Err ValueError) /\
  (forall b, wf b -> bs_init (VBits b) None = Ok b).
Proof. exact C12_errors_proof. Qed.
Print Assumptions C12_errors.

Example C12_errors_ex : bs_init (VInt 3) (Some (-1)) = Err ValueError /\ bs_init (VInt 3) (Some 5) = Ok (bits 5 3) /\
  bs_init (VStr "12") (Some 5) = Err ValueError.
Proof. split; [|split]; reflexivity. Qed.

Theorem C12_bit_list : forall l, l <> [] -> Forall (fun d => d = 0 \/ d = 1) l ->
  bs_init (VSeq l) None = Ok (mkbs (Z.of_nat (List.length l)) (be_number 2 l) (2 ^ Z.of_nat (List.length l) - 1)).
Proof. exact C12_bit_list_proof. Qed.
Print Assumptions C12_bit_list.

Example C12_bit_list_ex : bs_init (VSeq [1;1;0;1]) None = Ok (bits 4 13).
Proof. reflexivity. Qed.

(** C12 fails for the bytearrays of Python 3: they take the 0/1-list branch. *)
Theorem C12_bytearray_refuted : exists l b,
  Forall (fun x => 0 <= x < 256) l /\ bs_init (VBytearray Py3 l) None = Ok b /\
  bv b <> le_number l /\ bw b <> 8 * Z.of_nat (List.length l).
Proof. exact C12_bytearray_refuted_proof. Qed.
Print Assumptions C12_bytearray_refuted.

Theorem C12_bytes_round_trip_refuted : exists x y, wf x /\
  bs_init (VBytearray Py3 (bs_bytes x)) (Some (bw x)) = Ok y /\ y <> x.
Proof. exact C12_bytes_round_trip_refuted_proof. Qed.
Print Assumptions C12_bytes_round_trip_refuted.

(** C12 in Python 3, the part of the byte round trip that holds: one byte at most;
and [x.bytes] itself is the little-endian number for every width. *)
Theorem C12_bytes_round_trip_partial : forall x, wf x -> 1 <= bw x <= 8 ->
  bs_init (VBytearray Py3 (bs_bytes x)) (Some (bw x)) = Ok x.
Proof. exact C12_bytes_round_trip_partial_proof. Qed.
Print Assumptions C12_bytes_round_trip_partial.

Example C12_bytes_round_trip_ex : bs_init (VBytearray Py3 (bs_bytes (bits 7 77))) (Some 7) = Ok (bits 7 77).
Proof. reflexivity. Qed.

(** C12 in Python 3, exactly: a bytearray is read as a list of numbers, each
shifted in by one bit; an empty one raises. *)
Theorem C12_bytearray_py3 : forall l w, bs_init (VBytearray Py3 l) w = bs_init (VSeq l) w.
Proof. exact C12_bytearray_py3_proof. Qed.
Print Assumptions C12_bytearray_py3.

Example C12_bytearray_py3_ex : bs_init (VBytearray Py3 [0x34; 0x12]) None = Ok (bits 2 2) /\
  bs_init (VBytearray Py3 []) None = Err TypeError.
Proof. split; reflexivity. Qed.

(** C12 in Python 2: the little-endian number, eight bits a byte, for every
bytearray; cut off at a given width. *)
Theorem C12_bytearray_py2 : forall l, Forall (fun x => 0 <= x < 256) l ->
  bs_init (VBytearray Py2 l) None = Ok (mkbs (8 * Z.of_nat (List.length l)) (le_number l)
    (2 ^ (8 * Z.of_nat (List.length l)) - 1)) /\
  forall w, 0 <= w -> bs_init (VBytearray Py2 l) (Some w) = Ok (mkbs w (le_number l mod 2 ^ w) (2 ^ w - 1)).
Proof. exact C12_bytearray_py2_proof. Qed.
Print Assumptions C12_bytearray_py2.

Example C12_bytearray_py2_ex : bs_init (VBytearray Py2 [0x34; 0x12]) None = Ok (bits 16 0x1234) /\
  bs_init (VBytearray Py2 []) None = Ok (bits 0 0).
Proof. split; reflexivity. Qed.

(** C12 in Python 2: [bitstring(x.bytes, x.width) == x] for every bitstring. *)
Theorem C12_bytes_round_trip_py2 : forall x, wf x ->
  bs_init (VBytearray Py2 (bs_bytes x)) (Some (bw x)) = Ok x.
Proof. exact C12_bytes_round_trip_py2_proof. Qed.
Print Assumptions C12_bytes_round_trip_py2.

Example C12_bytes_round_trip_py2_ex :
  bs_init (VBytearray Py2 (bs_bytes (bits 20 0xabcde))) (Some 20) = Ok (bits 20 0xabcde).
Proof. reflexivity. Qed.

(** One byte with a given width is the same bitstring in both interpreters: what
the memory of the mock processor hands out for one byte. *)
Theorem C12_one_byte : forall py b w, bs_init (VBytearray py [b]) (Some w) = bs_init (VInt b) (Some w).
Proof. exact C12_one_byte_proof. Qed.
Print Assumptions C12_one_byte.

Example C12_one_byte_ex : bs_init (VBytearray Py2 [0x80]) (Some 8) = Ok (bits 8 0x80).
Proof. reflexivity. Qed.

(** [x % bytearray] in Python 2: not a sequence, so a copy of x (compare
C02_unsupported); in Python 3 the list is appended. *)
Theorem C12_mod_bytearray : forall a l, wf a ->
  bs_mod a (VBytearray Py2 l) = Ok a /\ bs_mod a (VBytearray Py3 l) = bs_mod a (VSeq l).
Proof. exact C12_mod_bytearray_proof. Qed.
Print Assumptions C12_mod_bytearray.

Example C12_mod_bytearray_ex : bs_mod (bits 2 1) (VBytearray Py2 [1; 0]) = Ok (bits 2 1) /\
  bs_mod (bits 2 1) (VBytearray Py3 [1; 0]) = Ok (bits 4 6).
Proof. split; reflexivity. Qed.

Theorem C12_bytes : forall x, wf x ->
  Z.of_nat (List.length (bs_bytes x)) = (bw x + 7) / 8 /\ le_number (bs_bytes x) = bv x /\
  forall i, 0 <= i < (bw x + 7) / 8 -> nth (Z.to_nat i) (bs_bytes x) 0 = (bv x / 256 ^ i) mod 256.
Proof. exact C12_bytes_proof. Qed.
Print Assumptions C12_bytes.

Example C12_bytes_ex : bs_bytes (bits 20 0xabcde) = [0xde; 0xbc; 0xa].
Proof. reflexivity. Qed.

(** [zeros] and [ones]; a count of zero (or less) raises. *)
Theorem C12_zeros_ones : forall n,
  (1 <= n -> zeros n = Ok (bits n 0) /\ ones n = Ok (bits n (2 ^ n - 1))) /\
  (n <= 0 -> zeros n = Err ValueError /\ ones n = Err ValueError).
Proof. exact C12_zeros_ones_proof. Qed.
Print Assumptions C12_zeros_ones.

Example C12_zeros_ones_ex : ones 5 = Ok (bits 5 31) /\ zeros 3 = Ok (bits 3 0).
Proof. split; reflexivity. Qed.

(** C13. *)
Theorem C13_queries : forall b, wf b ->
  bs_bit_count b = Ok (ones_below (Z.to_nat (bw b)) (bv b)) /\
  (bs_is_zero b = true <-> forall i, 0 <= i < bw b -> bit b i = false) /\
  (bs_is_ones b = true <-> forall i, 0 <= i < bw b -> bit b i = true) /\
  bs_is_zero_bit b = Ok (bits 1 (if bv b =? 0 then 1 else 0)) /\
  bs_is_ones_bit b = Ok (bits 1 (if bv b =? 2 ^ bw b - 1 then 1 else 0)).
Proof. exact C13_queries_proof. Qed.
Print Assumptions C13_queries.

Example C13_queries_ex : bs_bit_count (bits 16 0xf0f1) = Ok 9 /\ bs_is_ones (bits 3 7) = true.
Proof. split; reflexivity. Qed.

Theorem C13_extreme_bits : forall b, wf b ->
  (bv b = 0 -> bs_lowest_set_bit b = bw b /\ bs_highest_set_bit b = -1) /\
  (bv b <> 0 ->
     0 <= bs_lowest_set_bit b < bw b /\ bit b (bs_lowest_set_bit b) = true /\
     (forall k, 0 <= k < bs_lowest_set_bit b -> bit b k = false) /\
     0 <= bs_highest_set_bit b < bw b /\ bit b (bs_highest_set_bit b) = true /\
     (forall k, bs_highest_set_bit b < k -> bit b k = false)).
Proof. exact C13_extreme_bits_proof. Qed.
Print Assumptions C13_extreme_bits.

Example C13_extreme_bits_ex : bs_lowest_set_bit (bits 16 0x0ff0) = 4 /\ bs_highest_set_bit (bits 16 0x0ff0) = 11.
Proof. split; reflexivity. Qed.

(** C14. *)
Theorem C14_bitwise : forall a b, wf a -> wf b ->
  exists x y z, bs_and a (VBits b) = Ok x /\ bs_or a (VBits b) = Ok y /\ bs_xor a (VBits b) = Ok z /\
    wf x /\ wf y /\ wf z /\
    bw x = bw a /\ bw y = Z.max (bw a) (bw b) /\ bw z = Z.max (bw a) (bw b) /\
    forall i, 0 <= i -> bit x i = bit a i && bit b i /\ bit y i = bit a i || bit b i /\
                        bit z i = xorb (bit a i) (bit b i).
Proof. exact C14_bitwise_proof. Qed.
Print Assumptions C14_bitwise.

Example C14_bitwise_ex : bs_and (bits 8 0xcc) (VBits (bits 4 0xa)) = Ok (bits 8 8) /\
  bs_or (bits 4 0xc) (VBits (bits 8 0xaa)) = Ok (bits 8 0xae).
Proof. split; reflexivity. Qed.

Theorem C14_bitwise_int : forall a o z, wf a -> (o = VInt z \/ exists s, o = VStr s /\ means o z) ->
  bs_and a o = Ok (bits (bw a) (Z.land (bv a) z)) /\
  bs_or a o = Ok (bits (bw a) (Z.lor (bv a) z)) /\
  bs_xor a o = Ok (bits (bw a) (Z.lxor (bv a) z)).
Proof. exact C14_bitwise_int_proof. Qed.
Print Assumptions C14_bitwise_int.

Example C14_bitwise_int_ex : bs_and (bits 8 0xff) (VInt (-2)) = Ok (bits 8 0xfe).
Proof. reflexivity. Qed.

Theorem C14_shift : forall a n, wf a ->
  (0 <= n -> bs_lshift a (VInt n) = Ok (bits (bw a) (bv a * 2 ^ n)) /\
             bs_rshift a (VInt n) = Ok (bits (bw a) (bv a / 2 ^ n))) /\
  (0 <= n -> exists x y, bs_lshift a (VInt n) = Ok x /\ bs_rshift a (VInt n) = Ok y /\
     forall i, 0 <= i < bw a -> bit x i = (n <=? i) && bit a (i - n) /\ bit y i = bit a (i + n)) /\
  (n < 0 -> bs_lshift a (VInt n) = Err ValueError /\ bs_rshift a (VInt n) = Err ValueError).
Proof. exact C14_shift_proof. Qed.
Print Assumptions C14_shift.

Example C14_shift_ex : bs_lshift (bits 8 0x99) (VInt 3) = Ok (bits 8 0xc8) /\
  bs_rshift (bits 8 0x99) (VInt 3) = Ok (bits 8 0x13).
Proof. split; reflexivity. Qed.

Theorem C14_type_errors : forall a v,
  (forall z, v <> VInt z) -> bs_lshift a v = Err TypeError /\ bs_rshift a v = Err TypeError.
Proof. exact C14_type_errors_proof. Qed.
Print Assumptions C14_type_errors.

Example C14_type_errors_ex : bs_lshift (bits 8 1) (VBits (bits 8 1)) = Err TypeError.
Proof. reflexivity. Qed.

(** C15.  [canonical] digits: no superfluous leading zero. *)
Theorem C15_base_string : forall py b base, wf b ->
  (base = 8 \/ base = 10 \/ base = 16 -> (base = 8 -> py = Py2 -> bv b <> 0) ->
   exists wd ds, bs_base_string py b base =
       Ok (wd ++ "'" ++ (if (base =? 8)%Z then "o" else if (base =? 10)%Z then "d" else "h") ++ ds)%string /\
     canonical 10 wd (bw b) /\ canonical base ds (bv b)) /\
  (base = 2 -> exists wd ds, bs_base_string py b base = Ok (wd ++ "'b" ++ ds)%string /\
     canonical 10 wd (bw b) /\ denotes 2 ds (bv b) /\ strlen ds = bw b) /\
  (base <> 2 -> base <> 8 -> base <> 10 -> base <> 16 -> bs_base_string py b base = Err ValueError).
Proof. exact C15_base_string_proof. Qed.
Print Assumptions C15_base_string.

Example C15_base_string_ex : bs_base_string Py3 (bits 12 0xabc) 16 = Ok "12'habc"%string /\
  bs_base_string Py2 (bits 8 123) 8 = Ok "8'o173"%string /\
  bs_base_string Py3 (bits 8 123) 8 = Ok "8'o173"%string /\
  bs_base_string Py2 (bits 8 123) 10 = Ok "8'd123"%string.
Proof. repeat split; reflexivity. Qed.

(** C15 fails on Python 2 for zero in base 8: no digit is printed. *)
Theorem C15_octal_zero_refuted : exists b, wf b /\ bs_base_string Py2 b 8 = Ok "8'o"%string.
Proof. exact C15_octal_zero_refuted_proof. Qed.
Print Assumptions C15_octal_zero_refuted.

(** C15, [hex(x)] (Python 2): zero padded to the width. *)
Theorem C15_hex : forall b, wf b -> 1 <= bw b ->
  exists wd ds, bs_hex b = (wd ++ "'h" ++ ds)%string /\ canonical 10 wd (bw b) /\
    denotes 16 ds (bv b) /\ strlen ds = (bw b + 3) / 4.
Proof. exact C15_hex_proof. Qed.
Print Assumptions C15_hex.

Example C15_hex_ex : bs_hex (bits 13 0x2a) = "13'h002a"%string.
Proof. reflexivity. Qed.
