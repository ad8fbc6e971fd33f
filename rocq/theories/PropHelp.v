(** Property statements; each is proved in HelpThms.v under the same name.
    Written by tools/genprops.py. *)
From Verif Require Import BitstringModel SpecBits SpecArm HelpersModel HelpThms.

(** C16, carry and overflow: for operands of equal width (at least 2) the carry
is set exactly when the unsigned sum does not fit, the overflow exactly when the
signed sum does not fit. *)
Theorem C16_flags : forall x y c, wf x -> wf y -> bw x = bw y -> 2 <= bw x ->
  exists x' y' r,
    AddWithCarry x y (bitv c) =
      Ok ((x', y'),
          (r, bitv (2 ^ bw x <=? bv x + bv y + (if c then 1 else 0)),
           let s := twos (bw x) (bv x) + twos (bw x) (bv y) + (if c then 1 else 0) in
           bitv (negb ((- 2 ^ (bw x - 1) <=? s) && (s <? 2 ^ (bw x - 1)))))).
Proof. exact C16_flags_proof. Qed.
Print Assumptions C16_flags.

Example C16_flags_ex :
  AddWithCarry (bits 32 4294967295) (bits 32 1) (bitv true)
    = Ok ((bits 32 0, bits 32 1), (bits 32 1, bitv true, bitv false)) /\
  (exists p, AddWithCarry (bits 8 127) (bits 8 1) (bitv false) = Ok (p, (bits 8 127, bitv false, bitv true))).
Proof. split; [vm_compute; reflexivity|eexists; vm_compute; reflexivity]. Qed.

(** C16 fails for the returned value: reading [signed] on line 46 of helpers.py
inverts a result whose sign bit is set (0 + 0xffffffff gives 0). *)
Theorem C16_sum_refuted : exists x y c x' y' r co v,
  wf x /\ wf y /\ bw x = bw y /\ AddWithCarry x y (bitv c) = Ok ((x', y'), (r, co, v)) /\
  bv r <> (bv x + bv y + (if c then 1 else 0)) mod 2 ^ bw x.
Proof. exact C16_sum_refuted_proof. Qed.
Print Assumptions C16_sum_refuted.

(** C16, what does hold: the result is the sum modulo 2^N when that has its top
bit clear, and its bitwise complement otherwise; the operands suffer the same. *)
Theorem C16_sum_partial : forall x y c, wf x -> wf y -> bw x = bw y -> 2 <= bw x ->
  exists x' y' r co v, AddWithCarry x y (bitv c) = Ok ((x', y'), (r, co, v)) /\
    wf r /\ bw r = bw x /\
    let s := (bv x + bv y + (if c then 1 else 0)) mod 2 ^ bw x in
    let twisted := fun v => if v <? 2 ^ (bw x - 1) then v else 2 ^ bw x - 1 - v in
    bv r = twisted s /\ x' = bits (bw x) (twisted (bv x)) /\ y' = bits (bw x) (twisted (bv y)).
Proof. exact C16_sum_partial_proof. Qed.
Print Assumptions C16_sum_partial.

Example C16_sum_partial_ex :
  AddWithCarry (bits 32 5) (bits 32 7) (bitv true)
    = Ok ((bits 32 5, bits 32 7), (bits 32 13, bitv false, bitv false)).
Proof. vm_compute. reflexivity. Qed.

(** C16 at widths 0 and 1, where [signed] is always 0: the sum and the carry are
right, the overflow is the carry in. *)
Theorem C16_short : forall x y (c : bool), wf x -> wf y -> bw x = bw y -> bw x < 2 ->
  let s := bv x + bv y + (if c then 1 else 0) in
  AddWithCarry x y (bitv c) = Ok ((x, y), (bits (bw x) s, bitv (2 ^ bw x <=? s), bitv c)).
Proof. exact C16_short_proof. Qed.
Print Assumptions C16_short.

Example C16_short_ex : AddWithCarry (bits 1 1) (bits 1 1) (bitv true)
  = Ok ((bits 1 1, bits 1 1), (bits 1 1, bitv true, bitv true)).
Proof. vm_compute. reflexivity. Qed.

(** C16: operands of different width are rejected. *)
Theorem C16_width : forall x y c, bw x <> bw y -> AddWithCarry x y c = Err AssertionError.
Proof. exact C16_width_proof. Qed.
Print Assumptions C16_width.

Example C16_width_ex : AddWithCarry (bits 8 1) (bits 9 1) bit0 = Err AssertionError.
Proof. reflexivity. Qed.

(** C17: Shift_C on every type and amount, including amounts at or above the
width. *)
Theorem C17_shift_c : forall x t n c, wf x -> 1 <= bw x -> 0 <= n -> (t = SR_RRX -> n = 1) ->
  let '(v, co) := shift_result t (bw x) (bv x) n c in
  Shift_C x t n (bitv c) = Ok (bits (bw x) v, bitv co).
Proof. exact C17_shift_c_proof. Qed.
Print Assumptions C17_shift_c.

Example C17_shift_c_ex :
  shift_result SR_ASR 32 2147483648 40 false = (4294967295, true) /\
  shift_result SR_ROR 8 19 2 false = (196, true) /\
  Shift_C (bits 32 2147483648) SR_ASR 40 (bitv false) = Ok (bits 32 4294967295, bitv true).
Proof. split; [reflexivity|split; vm_compute; reflexivity]. Qed.

(** C17: Shift is the value part of Shift_C. *)
Theorem C17_shift : forall x t n c, wf x -> 1 <= bw x -> 0 <= n -> (t = SR_RRX -> n = 1) ->
  Shift x t n (bitv c) = Ok (bits (bw x) (fst (shift_result t (bw x) (bv x) n c))).
Proof. exact C17_shift_proof. Qed.
Print Assumptions C17_shift.

Example C17_shift_ex : Shift (bits 32 3) SR_RRX 1 (bitv true) = Ok (bits 32 2147483649).
Proof. vm_compute. reflexivity. Qed.

(** C17: the reading of rotation: bit i of the result is bit i+n (mod w) of the
operand. *)
Theorem C17_rotation : forall w v n i, 1 <= w -> 0 <= v < 2 ^ w -> 0 <= i < w ->
  0 <= rotr w v n < 2 ^ w /\ Z.testbit (rotr w v n) i = Z.testbit v ((i + n) mod w).
Proof. exact C17_rotation_proof. Qed.
Print Assumptions C17_rotation.

Example C17_rotation_ex : rotr 8 1 3 = 32 /\ rotr 8 1 11 = 32.
Proof. split; reflexivity. Qed.

(** C17: the functions with carry, called directly. *)
Theorem C17_with_carry : forall x n c, wf x -> 1 <= bw x -> 0 < n ->
  let ok := fun t n => Ok (bits (bw x) (fst (shift_result t (bw x) (bv x) n c)),
                           bitv (snd (shift_result t (bw x) (bv x) n c))) in
  LSL_C x n = ok SR_LSL n /\ LSR_C x n = ok SR_LSR n /\ ASR_C x n = ok SR_ASR n /\
  ROR_C x n = ok SR_ROR n /\ RRX_C x (bitv c) = ok SR_RRX 1.
Proof. exact C17_with_carry_proof. Qed.
Print Assumptions C17_with_carry.

Example C17_with_carry_ex :
  LSL_C (bits 4 9) 1 = Ok (bits 4 2, bitv true) /\ LSL_C (bits 4 9) 4 = Ok (bits 4 0, bitv true) /\
  LSL_C (bits 4 9) 5 = Ok (bits 4 0, bitv false) /\ LSR_C (bits 4 9) 4 = Ok (bits 4 0, bitv true).
Proof. repeat split. Qed.

(** C17: the functions without carry.  LSL, LSR and ROR also accept 0. *)
Theorem C17_without_carry : forall x n c, wf x -> 1 <= bw x -> 0 <= n ->
  let ok := fun t n => Ok (bits (bw x) (fst (shift_result t (bw x) (bv x) n c))) in
  LSL x n = ok SR_LSL n /\ LSR x n = ok SR_LSR n /\ ROR x n = ok SR_ROR n /\
  RRX x (bitv c) = ok SR_RRX 1 /\ (0 < n -> ASR x n = ok SR_ASR n).
Proof. exact C17_without_carry_proof. Qed.
Print Assumptions C17_without_carry.

Example C17_without_carry_ex :
  LSR (bits 8 200) 3 = Ok (bits 8 25) /\ ASR (bits 8 200) 3 = Ok (bits 8 249) /\ ROR (bits 8 200) 0 = Ok (bits 8 200).
Proof. repeat split. Qed.

(** C17 fails for ASR with a zero amount, which names an undefined variable
(helpers.py:79). *)
Theorem C17_asr_zero_refuted : exists x, wf x /\ ASR x 0 = Err NameError.
Proof. exact C17_asr_zero_refuted_proof. Qed.
Print Assumptions C17_asr_zero_refuted.

(** C17: rejected amounts. *)
Theorem C17_rejects : forall x c n,
  (n <= 0 -> LSL_C x n = Err AssertionError /\ LSR_C x n = Err AssertionError /\
             ASR_C x n = Err AssertionError) /\
  ROR_C x 0 = Err AssertionError /\
  (n <> 1 -> Shift_C x SR_RRX n c = Err AssertionError) /\
  (n < 0 -> ASR x n = Err AssertionError /\ LSL x n = Err ValueError /\ LSR x n = Err ValueError /\
            Shift_C x SR_LSL n c = Err AssertionError /\ Shift_C x SR_LSR n c = Err AssertionError /\
            Shift_C x SR_ASR n c = Err AssertionError).
Proof. exact C17_rejects_proof. Qed.
Print Assumptions C17_rejects.

Example C17_rejects_ex : Shift_C (bits 8 1) SR_RRX 2 bit0 = Err AssertionError.
Proof. reflexivity. Qed.

(** C17: an empty bitstring. *)
Theorem C17_empty : forall x n, wf x -> bw x = 0 ->
  (0 < n -> LSL_C x n = Ok (x, bitv false) /\ LSR_C x n = Ok (x, bitv false)) /\
  (0 <= n -> LSL x n = Ok x /\ LSR x n = Ok x) /\
  (n <> 0 -> forall c, ROR_C x n = Err ZeroDivisionError /\ ROR x n = Err ZeroDivisionError /\ Shift_C x SR_ROR n c = Err ZeroDivisionError /\ Shift x SR_ROR n c = Err ZeroDivisionError) /\
  forall c, RRX_C x (bitv c) = Ok (bitv c, bitv false).
Proof. exact C17_empty_proof. Qed.
Print Assumptions C17_empty.

Example C17_empty_ex : wf (bits 0 0) /\ LSL_C (bits 0 0) 3 = Ok (bits 0 0, bitv false) /\ ROR_C (bits 0 0) 3 = Err ZeroDivisionError.
Proof. split; [vm_compute; intuition discriminate|]. split; reflexivity. Qed.

(** C17: rotating goes around: also by amounts below 0. *)
Theorem C17_rotate_around : forall x n k, n <> 0 -> n + k * bw x <> 0 -> ROR_C x (n + k * bw x) = ROR_C x n /\ ROR x (n + k * bw x) = ROR x n.
Proof. exact C17_rotate_around_proof. Qed.
Print Assumptions C17_rotate_around.

Example C17_rotate_around_ex : ROR_C (bits 8 1) (-1) = Ok (bits 8 2, bitv false) /\ ROR_C (bits 8 1) 7 = Ok (bits 8 2, bitv false).
Proof. split; reflexivity. Qed.

(** C18: every 12-bit immediate expands to the architectural constant, and the
carry is bit 31 of a rotated constant, the incoming carry otherwise. *)
Theorem C18_expand : forall imm c, wf imm -> bw imm = 12 ->
  ThumbExpandImm_C imm c =
    Ok (bits 32 (expand_imm (bv imm)),
        if imm_rotated (bv imm) then bitv (Z.testbit (expand_imm (bv imm)) 31) else c) /\
  ThumbExpandImm imm = Ok (bits 32 (expand_imm (bv imm))).
Proof. exact C18_expand_proof. Qed.
Print Assumptions C18_expand.

Example C18_expand_ex :
  expand_imm 171 = 171 /\ expand_imm 427 = 11206827 /\ expand_imm 683 = 2868947712 /\
  expand_imm 939 = 2880154539 /\ expand_imm 1279 = 2139095040 /\
  ThumbExpandImm (bits 12 1279) = Ok (bits 32 2139095040).
Proof. repeat split. Qed.

(** C18: the expanded constant is a 32-bit value. *)
Theorem C18_range : forall v, 0 <= v < 4096 -> 0 <= expand_imm v < 2 ^ 32.
Proof. exact C18_range_proof. Qed.
Print Assumptions C18_range.

Example C18_range_ex : expand_imm 4095 = 510.
Proof. reflexivity. Qed.

(** C19: DecodeImmShift on every pair, and the range of the amount. *)
Theorem C19_decode : forall t i, wf t -> wf i -> bw t = 2 -> bw i = 5 ->
  DecodeImmShift t i = Ok (imm_shift (bv t) (bv i)) /\ 0 <= snd (imm_shift (bv t) (bv i)) <= 32 /\
  (fst (imm_shift (bv t) (bv i)) = SR_RRX -> snd (imm_shift (bv t) (bv i)) = 1).
Proof. exact C19_decode_proof. Qed.
Print Assumptions C19_decode.

Example C19_decode_ex :
  DecodeImmShift (bits 2 1) (bits 5 0) = Ok (SR_LSR, 32) /\ DecodeImmShift (bits 2 3) (bits 5 0) = Ok (SR_RRX, 1) /\
  DecodeImmShift (bits 2 3) (bits 5 7) = Ok (SR_ROR, 7).
Proof. repeat split. Qed.

(** C19: a type that is not two bits wide is rejected. *)
Theorem C19_bad_type : forall t i, wf t -> bw t <> 2 -> DecodeImmShift t i = Err ValueError.
Proof. exact C19_bad_type_proof. Qed.
Print Assumptions C19_bad_type.

Example C19_bad_type_ex : DecodeImmShift (bits 3 1) (bits 5 1) = Err ValueError.
Proof. reflexivity. Qed.

(** C20 on ints: the largest multiple of 2^k not above v. *)
Theorem C20_int : forall v k, 0 <= k ->
  Align_int v (2 ^ k) = Ok (v / 2 ^ k * 2 ^ k) /\ v / 2 ^ k * 2 ^ k <= v < v / 2 ^ k * 2 ^ k + 2 ^ k.
Proof. exact C20_int_proof. Qed.
Print Assumptions C20_int.

Example C20_int_ex : Align_int 4103 4 = Ok 4100 /\ Align_int (-3) 4 = Ok (-4).
Proof. split; reflexivity. Qed.

(** C20 on bitstrings. *)
Theorem C20_bits : forall b k, wf b -> 0 <= k ->
  Align_bits b (2 ^ k) = Ok (bits (bw b) (bv b / 2 ^ k * 2 ^ k)).
Proof. exact C20_bits_proof. Qed.
Print Assumptions C20_bits.

Example C20_bits_ex : Align_bits (bits 32 4103) 4 = Ok (bits 32 4100) /\ Align_bits (bits 2 3) 16 = Ok (bits 2 0).
Proof. split; vm_compute; reflexivity. Qed.

(** C20: alignment 0 is rejected. *)
Theorem C20_zero : forall v b, Align_int v 0 = Err AssertionError /\ Align_bits b 0 = Err AssertionError.
Proof. exact C20_zero_proof. Qed.
Print Assumptions C20_zero.

Example C20_zero_ex : Align_int 5 0 = Err AssertionError.
Proof. reflexivity. Qed.
