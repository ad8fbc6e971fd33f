(** * Properties C16-C20: architecture helpers *)
From Verif Require Import BitstringModel SpecBits SpecArm BitFacts BitOps BitText BitMisc HelpersModel HelpFacts.
From Coq Require Import Lia ZifyBool.
(*@imports
From Verif Require Import BitstringModel SpecBits SpecArm HelpersModel HelpThms.
@*)

(*@doc C16, carry and overflow: for operands of equal width (at least 2) the carry
is set exactly when the unsigned sum does not fit, the overflow exactly when the
signed sum does not fit. @*)
Lemma C16_flags_proof : forall x y c, wf x -> wf y -> bw x = bw y -> 2 <= bw x ->
  exists x' y' r,
    AddWithCarry x y (bitv c) =
      Ok ((x', y'),
          (r, bitv (2 ^ bw x <=? bv x + bv y + (if c then 1 else 0)),
           let s := twos (bw x) (bv x) + twos (bw x) (bv y) + (if c then 1 else 0) in
           bitv (negb ((- 2 ^ (bw x - 1) <=? s) && (s <? 2 ^ (bw x - 1)))))).
Proof.
  intros x y c Hx Hy Hw H2. do 3 eexists. rewrite addc_ok by assumption.
  cbn [bitv bv]. destruct Hx as (? & ? & ?), Hy as (? & ? & ?).
  rewrite carry_iff by (destruct c; lia). rewrite overflow_iff by lia. reflexivity.
Qed.
(*@ex
Example C16_flags_ex :
  AddWithCarry (bits 32 4294967295) (bits 32 1) (bitv true)
    = Ok ((bits 32 0, bits 32 1), (bits 32 1, bitv true, bitv false)) /\
  (exists p, AddWithCarry (bits 8 127) (bits 8 1) (bitv false) = Ok (p, (bits 8 127, bitv false, bitv true))).
Proof. split; [vm_compute; reflexivity|eexists; vm_compute; reflexivity]. Qed.
@*)

(*@doc C16 fails for the returned value: reading [signed] on line 46 of helpers.py
inverts a result whose sign bit is set (0 + 0xffffffff gives 0). @*)
Lemma C16_sum_refuted_proof : exists x y c x' y' r co v,
  wf x /\ wf y /\ bw x = bw y /\ AddWithCarry x y (bitv c) = Ok ((x', y'), (r, co, v)) /\
  bv r <> (bv x + bv y + (if c then 1 else 0)) mod 2 ^ bw x.
Proof.
  exists (bits 32 0), (bits 32 4294967295), false. do 5 eexists.
  split; [apply wf_bits; lia|]. split; [apply wf_bits; lia|]. split; [reflexivity|].
  split; [vm_compute; reflexivity|]. vm_compute. discriminate.
Qed.

(*@doc C16, what does hold: the result is the sum modulo 2^N when that has its top
bit clear, and its bitwise complement otherwise; the operands suffer the same. @*)
Lemma C16_sum_partial_proof : forall x y c, wf x -> wf y -> bw x = bw y -> 2 <= bw x ->
  exists x' y' r co v, AddWithCarry x y (bitv c) = Ok ((x', y'), (r, co, v)) /\
    wf r /\ bw r = bw x /\
    let s := (bv x + bv y + (if c then 1 else 0)) mod 2 ^ bw x in
    let twisted := fun v => if v <? 2 ^ (bw x - 1) then v else 2 ^ bw x - 1 - v in
    bv r = twisted s /\ x' = bits (bw x) (twisted (bv x)) /\ y' = bits (bw x) (twisted (bv y)).
Proof.
  intros x y c Hx Hy Hw H2. do 5 eexists. split; [apply addc_ok; assumption|].
  cbv zeta. set (s := (bv x + bv y + _)). change (bv (bits (bw x) s)) with (s mod 2 ^ bw x).
  pose proof (pow2_pos (bw x) ltac:(lia)) as P.
  pose proof (Z.mod_pos_bound s (2 ^ bw x) P) as B.
  change (bv x + bv y + (if c then 1 else 0)) with s.
  assert (Ex := wf_eq_bits x Hx). assert (Ey := wf_eq_bits y Hy).
  destruct (s mod 2 ^ bw x <? 2 ^ (bw x - 1)) eqn:L;
  (split; [apply wf_bits; lia|]; split; [reflexivity|]; split;
   [cbn [bits bv]; rewrite ?L; try reflexivity; apply Z.mod_small; lia|]; split).
  1,3: destruct (bv x <? 2 ^ (bw x - 1)); [exact Ex|reflexivity].
  all: destruct (bv y <? 2 ^ (bw x - 1)); [rewrite Hw; exact Ey|reflexivity].
Qed.
(*@ex
Example C16_sum_partial_ex :
  AddWithCarry (bits 32 5) (bits 32 7) (bitv true)
    = Ok ((bits 32 5, bits 32 7), (bits 32 13, bitv false, bitv false)).
Proof. vm_compute. reflexivity. Qed.
@*)

(*@doc C16 at widths 0 and 1, where [signed] is always 0: the sum and the carry are
right, the overflow is the carry in. @*)
Lemma C16_short_proof : forall x y (c : bool), wf x -> wf y -> bw x = bw y -> bw x < 2 ->
  let s := bv x + bv y + (if c then 1 else 0) in
  AddWithCarry x y (bitv c) = Ok ((x, y), (bits (bw x) s, bitv (2 ^ bw x <=? s), bitv c)).
Proof.
  intros x y c Hx Hy Hw H2 s. rewrite addc_short by assumption.
  change (bv x + bv y + bv (bitv c)) with s. destruct Hx as (? & ? & ?), Hy as (? & ? & ?).
  rewrite carry_iff by (unfold s; destruct c; lia). destruct c; reflexivity.
Qed.
(*@ex
Example C16_short_ex : AddWithCarry (bits 1 1) (bits 1 1) (bitv true)
  = Ok ((bits 1 1, bits 1 1), (bits 1 1, bitv true, bitv true)).
Proof. vm_compute. reflexivity. Qed.
@*)

(*@doc C16: operands of different width are rejected. @*)
Lemma C16_width_proof : forall x y c, bw x <> bw y -> AddWithCarry x y c = Err AssertionError.
Proof. intros x y c H. unfold AddWithCarry. replace (bw x =? bw y) with false by lia. reflexivity. Qed.
(*@ex
Example C16_width_ex : AddWithCarry (bits 8 1) (bits 9 1) bit0 = Err AssertionError.
Proof. reflexivity. Qed.
@*)

(*@doc C17: Shift_C on every type and amount, including amounts at or above the
width. @*)
Lemma C17_shift_c_proof : forall x t n c, wf x -> 1 <= bw x -> 0 <= n -> (t = SR_RRX -> n = 1) ->
  let '(v, co) := shift_result t (bw x) (bv x) n c in
  Shift_C x t n (bitv c) = Ok (bits (bw x) v, bitv co).
Proof.
  intros x t n c Hx H1 Hn Ht. pose proof (Shift_C_ok x t n c Hx H1 Hn Ht) as E.
  destruct (shift_result t (bw x) (bv x) n c). exact E.
Qed.
(*@ex
Example C17_shift_c_ex :
  shift_result SR_ASR 32 2147483648 40 false = (4294967295, true) /\
  shift_result SR_ROR 8 19 2 false = (196, true) /\
  Shift_C (bits 32 2147483648) SR_ASR 40 (bitv false) = Ok (bits 32 4294967295, bitv true).
Proof. split; [reflexivity|split; vm_compute; reflexivity]. Qed.
@*)

(*@doc C17: Shift is the value part of Shift_C. @*)
Lemma C17_shift_proof : forall x t n c, wf x -> 1 <= bw x -> 0 <= n -> (t = SR_RRX -> n = 1) ->
  Shift x t n (bitv c) = Ok (bits (bw x) (fst (shift_result t (bw x) (bv x) n c))).
Proof. intros. unfold Shift. rewrite Shift_C_ok by assumption. reflexivity. Qed.
(*@ex
Example C17_shift_ex : Shift (bits 32 3) SR_RRX 1 (bitv true) = Ok (bits 32 2147483649).
Proof. vm_compute. reflexivity. Qed.
@*)

(*@doc C17: the reading of rotation: bit i of the result is bit i+n (mod w) of the
operand. @*)
Lemma C17_rotation_proof : forall w v n i, 1 <= w -> 0 <= v < 2 ^ w -> 0 <= i < w ->
  0 <= rotr w v n < 2 ^ w /\ Z.testbit (rotr w v n) i = Z.testbit v ((i + n) mod w).
Proof. intros. split; [apply rotr_range; lia|apply rotr_testbit; lia]. Qed.
(*@ex
Example C17_rotation_ex : rotr 8 1 3 = 32 /\ rotr 8 1 11 = 32.
Proof. split; reflexivity. Qed.
@*)

(*@doc C17: the functions with carry, called directly. @*)
Lemma C17_with_carry_proof : forall x n c, wf x -> 1 <= bw x -> 0 < n ->
  let ok := fun t n => Ok (bits (bw x) (fst (shift_result t (bw x) (bv x) n c)),
                           bitv (snd (shift_result t (bw x) (bv x) n c))) in
  LSL_C x n = ok SR_LSL n /\ LSR_C x n = ok SR_LSR n /\ ASR_C x n = ok SR_ASR n /\
  ROR_C x n = ok SR_ROR n /\ RRX_C x (bitv c) = ok SR_RRX 1.
Proof.
  intros x n c Hx H1 Hn ok. unfold ok.
  assert (A : forall t, t <> SR_RRX -> n <> 0 -> Shift_C x t n (bitv c) = ok t n)
    by (intros; apply Shift_C_ok; auto; [lia|intros ->; congruence]).
  assert (N : forall t, t <> SR_RRX -> negb (sr_eqb t SR_RRX && negb (n =? 1)) = true)
    by (intros []; try reflexivity; congruence).
  assert (N0 : (n =? 0) = false) by lia.
  repeat split.
  1-4: match goal with |- _ = Ok (bits _ (fst (shift_result ?t _ _ _ _)), _) =>
         transitivity (Shift_C x t n (bitv c));
         [unfold Shift_C; rewrite N by discriminate; rewrite N0; reflexivity
         |apply A; [discriminate|lia]] end.
  rewrite <- (Shift_C_ok x SR_RRX 1 c) by (auto; lia). reflexivity.
Qed.
(*@ex
Example C17_with_carry_ex :
  LSL_C (bits 4 9) 1 = Ok (bits 4 2, bitv true) /\ LSL_C (bits 4 9) 4 = Ok (bits 4 0, bitv true) /\
  LSL_C (bits 4 9) 5 = Ok (bits 4 0, bitv false) /\ LSR_C (bits 4 9) 4 = Ok (bits 4 0, bitv true).
Proof. repeat split. Qed.
@*)

(*@doc C17: the functions without carry.  LSL, LSR and ROR also accept 0. @*)
Lemma C17_without_carry_proof : forall x n c, wf x -> 1 <= bw x -> 0 <= n ->
  let ok := fun t n => Ok (bits (bw x) (fst (shift_result t (bw x) (bv x) n c))) in
  LSL x n = ok SR_LSL n /\ LSR x n = ok SR_LSR n /\ ROR x n = ok SR_ROR n /\
  RRX x (bitv c) = ok SR_RRX 1 /\ (0 < n -> ASR x n = ok SR_ASR n).
Proof.
  intros x n c Hx H1 Hn ok. unfold ok.
  assert (Ex := wf_eq_bits x Hx).
  destruct (C17_with_carry_proof x 1 c Hx H1 ltac:(lia)) as (_ & _ & _ & _ & R).
  destruct (Z.eq_dec n 0) as [->|Nz].
  - rewrite LSL_ok, LSR_ok by (auto; lia). unfold RRX, ROR. rewrite R. cbn [Z.eqb bind fst shift_result].
    rewrite Z.pow_0_r, Z.mul_1_r, Z.div_1_r. repeat split; try lia. congruence.
  - destruct (C17_with_carry_proof x n c Hx H1 ltac:(lia)) as (L & S & A & O & _).
    rewrite LSL_ok, LSR_ok by (auto; lia). unfold RRX, ROR, ASR. rewrite R, O, A.
    replace (n =? 0) with false by lia. replace (0 <=? n) with true by lia.
    repeat split. unfold shift_result. replace (n =? 0) with false by lia. cbn [fst].
    rewrite bits_mod_eq by lia. reflexivity.
    unfold shift_result. replace (n =? 0) with false by lia. reflexivity.
Qed.
(*@ex
Example C17_without_carry_ex :
  LSR (bits 8 200) 3 = Ok (bits 8 25) /\ ASR (bits 8 200) 3 = Ok (bits 8 249) /\ ROR (bits 8 200) 0 = Ok (bits 8 200).
Proof. repeat split. Qed.
@*)

(*@doc C17 fails for ASR with a zero amount, which names an undefined variable
(helpers.py:79). @*)
Lemma C17_asr_zero_refuted_proof : exists x, wf x /\ ASR x 0 = Err NameError.
Proof. exists (bits 8 1). split; [apply wf_bits; lia|reflexivity]. Qed.

(*@doc C17: rejected amounts. @*)
Lemma C17_rejects_proof : forall x c n,
  (n <= 0 -> LSL_C x n = Err AssertionError /\ LSR_C x n = Err AssertionError /\
             ASR_C x n = Err AssertionError) /\
  ROR_C x 0 = Err AssertionError /\
  (n <> 1 -> Shift_C x SR_RRX n c = Err AssertionError) /\
  (n < 0 -> ASR x n = Err AssertionError /\ LSL x n = Err ValueError /\ LSR x n = Err ValueError /\
            Shift_C x SR_LSL n c = Err AssertionError /\ Shift_C x SR_LSR n c = Err AssertionError /\
            Shift_C x SR_ASR n c = Err AssertionError).
Proof.
  intros x c n. repeat split; intros; unfold LSL_C, LSR_C, ASR_C, ROR_C, Shift_C, ASR, LSL, LSR, bs_lshift, bs_rshift, py_shl, py_shr, LSL_C, LSR_C, ASR_C;
  cbn [sr_eqb sr_value Z.eqb Pos.eqb andb orb negb assert_ bind];
  repeat match goal with
  | |- context [0 <? n] => replace (0 <? n) with false by lia
  | |- context [n <? 0] => replace (n <? 0) with true by lia
  | |- context [0 <=? n] => replace (0 <=? n) with false by lia
  | |- context [n =? 1] => replace (n =? 1) with false by lia
  | |- context [n =? 0] => replace (n =? 0) with false by lia
  end; reflexivity.
Qed.
(*@ex
Example C17_rejects_ex : Shift_C (bits 8 1) SR_RRX 2 bit0 = Err AssertionError.
Proof. reflexivity. Qed.
@*)

(*@doc C17: an empty bitstring. @*)
Lemma C17_empty_proof : forall x n, wf x -> bw x = 0 ->
  (0 < n -> LSL_C x n = Ok (x, bitv false) /\ LSR_C x n = Ok (x, bitv false)) /\
  (0 <= n -> LSL x n = Ok x /\ LSR x n = Ok x) /\
  (n <> 0 -> forall c, ROR_C x n = Err ZeroDivisionError /\ ROR x n = Err ZeroDivisionError /\ Shift_C x SR_ROR n c = Err ZeroDivisionError /\ Shift x SR_ROR n c = Err ZeroDivisionError) /\
  forall c, RRX_C x (bitv c) = Ok (bitv c, bitv false).
Proof.
  intros x n Hx E. assert (X : x = bits 0 0).
  { destruct Hx as (_ & V & M). destruct x as [w v m]. cbn [bw bv bm] in *. subst w. change (2 ^ 0) with 1 in *. unfold bits. f_equal; change (0 mod 2 ^ 0) with 0; lia. }
  assert (B : forall z, bits 0 z = x). { intros z. rewrite X. unfold bits. change (2 ^ 0) with 1. now rewrite !Z.mod_1_r. }
  split; [|split; [|split]].
  - intros N. rewrite LSL_C_ok, LSR_C_ok by assumption. rewrite E, !B. rewrite X. cbn [bits bv]. change (0 mod 2 ^ 0) with 0. now rewrite Z.mul_0_l, !Z.bits_0.
  - intros N. rewrite LSL_ok, LSR_ok by assumption. now rewrite E, !B.
  - intros N c. assert (R : ROR_C x n = Err ZeroDivisionError). { unfold ROR_C. rewrite E. replace (n =? 0) with false by lia. reflexivity. }
    assert (S : Shift_C x SR_ROR n c = Err ZeroDivisionError). { unfold Shift_C. cbn [sr_eqb sr_value Z.eqb Pos.eqb andb orb negb assert_ bind]. replace (n =? 0) with false by lia. exact R. }
    unfold ROR, Shift. rewrite R, S. replace (n =? 0) with false by lia. repeat split.
  - intros c. rewrite X. destruct c; reflexivity.
Qed.
(*@ex
Example C17_empty_ex : wf (bits 0 0) /\ LSL_C (bits 0 0) 3 = Ok (bits 0 0, bitv false) /\ ROR_C (bits 0 0) 3 = Err ZeroDivisionError.
Proof. split; [vm_compute; intuition discriminate|]. split; reflexivity. Qed.
@*)
(*@doc C17: rotating goes around: also by amounts below 0. @*)
Lemma C17_rotate_around_proof : forall x n k, n <> 0 -> n + k * bw x <> 0 -> ROR_C x (n + k * bw x) = ROR_C x n /\ ROR x (n + k * bw x) = ROR x n.
Proof.
  intros x n k N M. assert (E : ROR_C x (n + k * bw x) = ROR_C x n).
  { unfold ROR_C. replace (n + k * bw x =? 0) with false by lia. replace (n =? 0) with false by lia. cbn [negb assert_ bind].
    destruct (Z.eqb_spec (bw x) 0) as [Z|Z]; [reflexivity|]. now rewrite Z.mod_add. }
  split; [exact E|]. unfold ROR. rewrite E. replace (n + k * bw x =? 0) with false by lia. replace (n =? 0) with false by lia. reflexivity.
Qed.
(*@ex
Example C17_rotate_around_ex : ROR_C (bits 8 1) (-1) = Ok (bits 8 2, bitv false) /\ ROR_C (bits 8 1) 7 = Ok (bits 8 2, bitv false).
Proof. split; reflexivity. Qed.
@*)

(*@doc C18: every 12-bit immediate expands to the architectural constant, and the
carry is bit 31 of a rotated constant, the incoming carry otherwise. @*)
Lemma C18_expand_proof : forall imm c, wf imm -> bw imm = 12 ->
  ThumbExpandImm_C imm c =
    Ok (bits 32 (expand_imm (bv imm)),
        if imm_rotated (bv imm) then bitv (Z.testbit (expand_imm (bv imm)) 31) else c) /\
  ThumbExpandImm imm = Ok (bits 32 (expand_imm (bv imm))).
Proof.
  intros imm c H Hw. destruct (wf_width_bits imm 12 H Hw) as [E B]. unfold ThumbExpandImm.
  rewrite E. change (bv (bits 12 (bv imm))) with (bv imm mod 2 ^ 12).
  rewrite (Z.mod_small (bv imm)) by exact B. change (2 ^ 12) with 4096 in B.
  rewrite !expand_ok by exact B. split; reflexivity.
Qed.
(*@ex
Example C18_expand_ex :
  expand_imm 171 = 171 /\ expand_imm 427 = 11206827 /\ expand_imm 683 = 2868947712 /\
  expand_imm 939 = 2880154539 /\ expand_imm 1279 = 2139095040 /\
  ThumbExpandImm (bits 12 1279) = Ok (bits 32 2139095040).
Proof. repeat split. Qed.
@*)

(*@doc C18: the expanded constant is a 32-bit value. @*)
Lemma C18_range_proof : forall v, 0 <= v < 4096 -> 0 <= expand_imm v < 2 ^ 32.
Proof.
  intros v Hv.
  assert (E : ((0 <=? expand_imm v) && (expand_imm v <? 2 ^ 32)) = true).
  { apply (sweep _ (fun v => (0 <=? expand_imm v) && (expand_imm v <? 2 ^ 32)) (fun _ => true) 4096); [|exact Hv].
    vm_compute. reflexivity. }
  lia.
Qed.
(*@ex
Example C18_range_ex : expand_imm 4095 = 510.
Proof. reflexivity. Qed.
@*)

(*@doc C19: DecodeImmShift on every pair, and the range of the amount. @*)
Lemma C19_decode_proof : forall t i, wf t -> wf i -> bw t = 2 -> bw i = 5 ->
  DecodeImmShift t i = Ok (imm_shift (bv t) (bv i)) /\ 0 <= snd (imm_shift (bv t) (bv i)) <= 32 /\
  (fst (imm_shift (bv t) (bv i)) = SR_RRX -> snd (imm_shift (bv t) (bv i)) = 1).
Proof.
  intros t i Ht Hi Hwt Hwi. destruct (wf_width_bits t 2 Ht Hwt) as [Et Bt].
  destruct (wf_width_bits i 5 Hi Hwi) as [Ei Bi]. change (2 ^ 2) with 4 in Bt. change (2 ^ 5) with 32 in Bi.
  split.
  - rewrite Et at 1. rewrite Ei at 1. apply decode_shift_ok; assumption.
  - unfold imm_shift. assert (Hc : bv t = 0 \/ bv t = 1 \/ bv t = 2 \/ bv t = 3) by lia.
    destruct Hc as [-> | [-> | [-> | -> ]]]; destruct (bv i =? 0) eqn:E; cbn; split; (lia || congruence).
Qed.
(*@ex
Example C19_decode_ex :
  DecodeImmShift (bits 2 1) (bits 5 0) = Ok (SR_LSR, 32) /\ DecodeImmShift (bits 2 3) (bits 5 0) = Ok (SR_RRX, 1) /\
  DecodeImmShift (bits 2 3) (bits 5 7) = Ok (SR_ROR, 7).
Proof. repeat split. Qed.
@*)

(*@doc C19: a type that is not two bits wide is rejected. @*)
Lemma C19_bad_type_proof : forall t i, wf t -> bw t <> 2 -> DecodeImmShift t i = Err ValueError.
Proof.
  intros t i H Hw. unfold DecodeImmShift.
  assert (T : forall s, bin_text s -> strlen s = 2 -> eq_text t s = Ok false).
  { intros s Hs Es. rewrite (eq_text_ok t s _ H Hs eq_refl), Es. replace (bw t =? 2) with false by lia. reflexivity. }
  assert (B : forall a b, bin_char a -> bin_char b -> bin_text (String a (String b EmptyString)))
    by (intros a b Ha Hb; split; [discriminate|exact (Forall_cons a Ha (Forall_cons b Hb (Forall_nil _)))]).
  rewrite (T "00"%string), (T "01"%string), (T "10"%string), (T "11"%string);
    try reflexivity; apply B; ((left; reflexivity) || (right; reflexivity)).
Qed.
(*@ex
Example C19_bad_type_ex : DecodeImmShift (bits 3 1) (bits 5 1) = Err ValueError.
Proof. reflexivity. Qed.
@*)

(*@doc C20 on ints: the largest multiple of 2^k not above v. @*)
Lemma C20_int_proof : forall v k, 0 <= k ->
  Align_int v (2 ^ k) = Ok (v / 2 ^ k * 2 ^ k) /\ v / 2 ^ k * 2 ^ k <= v < v / 2 ^ k * 2 ^ k + 2 ^ k.
Proof.
  intros v k Hk. pose proof (pow2_pos k Hk) as P. split.
  - unfold Align_int. replace (2 ^ k =? 0) with false by lia. cbn [negb assert_ bind]. f_equal.
    rewrite <- Z.shiftl_mul_pow2, <- Z.shiftr_div_pow2 by lia. apply Z.bits_inj'. intros i Hi.
    rewrite Z.land_spec, Z.lnot_spec by lia.
    replace (2 ^ k - 1) with (Z.ones k) by (rewrite Z.ones_equiv; lia).
    destruct (Z_lt_dec i k).
    + rewrite Z.ones_spec_low, Z.shiftl_spec_low by lia. apply andb_false_r.
    + rewrite Z.ones_spec_high, Z.shiftl_spec by lia. rewrite Z.shiftr_spec by lia.
      cbn [negb]. rewrite andb_true_r. f_equal. lia.
  - pose proof (Z.div_mod v (2 ^ k) ltac:(lia)). pose proof (Z.mod_pos_bound v (2 ^ k) P). lia.
Qed.
(*@ex
Example C20_int_ex : Align_int 4103 4 = Ok 4100 /\ Align_int (-3) 4 = Ok (-4).
Proof. split; reflexivity. Qed.
@*)

(*@doc C20 on bitstrings. @*)
Lemma C20_bits_proof : forall b k, wf b -> 0 <= k ->
  Align_bits b (2 ^ k) = Ok (bits (bw b) (bv b / 2 ^ k * 2 ^ k)).
Proof.
  intros b k Hb Hk. pose proof (pow2_pos k Hk) as P. assert (Hb' := Hb). destruct Hb' as (Hw & Hv & Hm).
  unfold Align_bits. replace (2 ^ k =? 0) with false by lia. cbn [negb assert_ bind].
  rewrite init_int by lia. cbn [bind]. rewrite invert_ok by (apply wf_bits; lia). cbn [bind].
  unfold bs_and; cbn [bit_operand bind]; rewrite init_int by lia. f_equal.
  apply wf_bit_ext; [apply wf_bits; lia|apply wf_bits; lia|reflexivity|].
  intros i Hi. cbn [bits bw] in Hi. rewrite !bit_bits by lia.
  replace (i <? bw b) with true by lia. cbn [andb].
  cbn [bits bw bv]. rewrite Z.land_spec.
  pose proof (pow2_pos (bw b) Hw).
  pose proof (Z.mod_pos_bound (2 ^ k - 1) (2 ^ bw b) ltac:(lia)).
  rewrite Z.mod_small with (a := 2 ^ bw b - 1 - _) by lia.
  rewrite bit_complement by lia. rewrite testbit_mod by lia. replace (i <? bw b) with true by lia.
  cbn [andb]. replace (2 ^ k - 1) with (Z.ones k) by (rewrite Z.ones_equiv; lia).
  rewrite <- Z.shiftl_mul_pow2, <- Z.shiftr_div_pow2 by lia.
  destruct (Z_lt_dec i k).
  + rewrite Z.ones_spec_low, Z.shiftl_spec_low by lia. apply andb_false_r.
  + rewrite Z.ones_spec_high, Z.shiftl_spec by lia. rewrite Z.shiftr_spec by lia.
    cbn [negb]. rewrite andb_true_r. f_equal. lia.
Qed.
(*@ex
Example C20_bits_ex : Align_bits (bits 32 4103) 4 = Ok (bits 32 4100) /\ Align_bits (bits 2 3) 16 = Ok (bits 2 0).
Proof. split; vm_compute; reflexivity. Qed.
@*)

(*@doc C20: alignment 0 is rejected. @*)
Lemma C20_zero_proof : forall v b, Align_int v 0 = Err AssertionError /\ Align_bits b 0 = Err AssertionError.
Proof. split; reflexivity. Qed.
(*@ex
Example C20_zero_ex : Align_int 5 0 = Err AssertionError.
Proof. reflexivity. Qed.
@*)
