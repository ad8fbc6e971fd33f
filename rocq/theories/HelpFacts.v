(** * Facts about the helper functions *)
From Verif Require Import BitstringModel SpecBits BitFacts BitOps BitText BitMisc HelpersModel SpecArm.
From Coq Require Import Lia ZifyBool.

Lemma wf_bitv : forall b, wf (bitv b).
Proof. intros [|]; unfold wf, bitv; cbn; lia. Qed.

Lemma get_bit_bitv : forall b i, 0 <= i -> bs_get_bit b i = Ok (bitv (Z.testbit (bv b) i)).
Proof. intros. rewrite get_bit_ok by assumption. reflexivity. Qed.

Lemma zeros_ok : forall n, 0 < n -> zeros n = Ok (bits n 0).
Proof.
  intros n H. unfold zeros. rewrite init_text.
  - unfold strlen. rewrite repeat_char_length, Z2Nat.id by lia.
    replace (be_number 2 (text_bits (repeat_char "0" (Z.to_nat n)))) with 0.
    + unfold bits. rewrite Z.mod_0_l by (pose proof (pow2_pos n); lia). reflexivity.
    + unfold text_bits. rewrite repeat_char_chars.
      replace (map bit_of_char (repeat "0"%char (Z.to_nat n))) with (repeat 0 (Z.to_nat n)).
      * rewrite be_repeat by lia. lia.
      * induction (Z.to_nat n) as [|k IH]; [reflexivity|]. cbn [repeat map]. rewrite <- IH. reflexivity.
  - split.
    + destruct (Z.to_nat n) eqn:E; [lia|]. cbn. discriminate.
    + rewrite repeat_char_chars. apply Forall_forall. intros c Hc. apply repeat_spec in Hc. left; exact Hc.
Qed.

Lemma bits_bv : forall w v, bv (bits w v) = v mod 2 ^ w. Proof. reflexivity. Qed.
Lemma bits_bw : forall w v, bw (bits w v) = w. Proof. reflexivity. Qed.

Lemma LSL_C_ok : forall x n, wf x -> 0 < n ->
  LSL_C x n = Ok (bits (bw x) (bv x * 2 ^ n), bitv (Z.testbit (bv x * 2 ^ n) (bw x))).
Proof.
  intros x n Hx Hn. unfold LSL_C.
  replace (0 <? n) with true by lia. cbn [assert_ bind].
  rewrite zeros_ok by assumption. cbn [bind].
  pose proof (wf_bits n 0 ltac:(lia)) as Hz.
  rewrite mod_bits by assumption. cbn [bind].
  assert (E : bv (cat x (bits n 0)) = bv x * 2 ^ n).
  { cbn [cat bv]. rewrite bits_bv, bits_bw, Z.mod_0_l by (pose proof (pow2_pos n); lia). lia. }
  destruct Hx as (Hw & Hv & Hm).
  rewrite getslice_simple; [|apply cat_wf; [split; auto|exact Hz]|lia|cbn [cat bw bits]; lia].
  cbn [bind]. rewrite E, Z.sub_0_r, Z.shiftr_0_r.
  rewrite get_bit_bitv by lia. rewrite E. reflexivity.
Qed.

Lemma LSL_ok : forall x n, wf x -> 0 <= n -> LSL x n = Ok (bits (bw x) (bv x * 2 ^ n)).
Proof. intros. apply lshift_ok; assumption. Qed.
Lemma LSR_ok : forall x n, wf x -> 0 <= n -> LSR x n = Ok (bits (bw x) (bv x / 2 ^ n)).
Proof. intros. apply rshift_ok; assumption. Qed.

Lemma LSR_C_ok : forall x n, wf x -> 0 < n ->
  LSR_C x n = Ok (bits (bw x) (bv x / 2 ^ n), bitv (Z.testbit (bv x) (n - 1))).
Proof.
  intros x n Hx Hn. unfold LSR_C.
  replace (0 <? n) with true by lia. cbn [assert_ bind].
  rewrite zero_extend_ok by (auto; lia). cbn [bind].
  destruct Hx as (Hw & Hv & Hm).
  assert (E : bv (bits (n + bw x) (bv x)) = bv x).
  { rewrite bits_bv. apply Z.mod_small. pose proof (pow2_le (bw x) (n + bw x)). lia. }
  rewrite getslice_simple; [|apply wf_bits; lia|lia|cbn [bits bw]; lia].
  cbn [bind]. rewrite E, get_bit_bitv by lia. rewrite E.
  replace (n + bw x - n) with (bw x) by lia. rewrite Z.shiftr_div_pow2 by lia. reflexivity.
Qed.

Lemma mod_mod_le : forall v a b, 0 <= a <= b -> (v mod 2 ^ b) mod 2 ^ a = v mod 2 ^ a.
Proof.
  intros v a b H. apply Z.bits_inj'. intros i Hi.
  rewrite !testbit_mod by lia. destruct (i <? a) eqn:E; cbn; [|reflexivity].
  replace (i <? b) with true by lia. reflexivity.
Qed.

Lemma bits_shiftr_mod : forall w n v, 0 <= w -> 0 <= n ->
  bits w (Z.shiftr (v mod 2 ^ (n + w)) n) = bits w (v / 2 ^ n).
Proof.
  intros w n v Hw Hn. unfold bits. f_equal. apply Z.bits_inj'. intros i Hi.
  rewrite !testbit_mod by lia. destruct (i <? w) eqn:E; cbn [andb]; [|reflexivity].
  rewrite Z.shiftr_spec, testbit_mod by lia. replace (i + n <? n + w) with true by lia.
  cbn [andb]. rewrite <- Z.shiftr_div_pow2, Z.shiftr_spec by lia. reflexivity.
Qed.

Lemma ASR_C_ok : forall x n, wf x -> 1 <= bw x -> 0 < n ->
  ASR_C x n = Ok (bits (bw x) (twos (bw x) (bv x) / 2 ^ n),
                  bitv (Z.testbit (twos (bw x) (bv x)) (n - 1))).
Proof.
  intros x n Hx H1 Hn. unfold ASR_C.
  replace (0 <? n) with true by lia. cbn [assert_ bind].
  rewrite sign_extend_ok by (auto; lia). cbn [bind].
  rewrite getslice_simple; [|apply wf_bits; lia|lia|cbn [bits bw]; lia].
  cbn [bind]. rewrite get_bit_bitv by lia. rewrite bits_bv.
  replace (n + bw x - n) with (bw x) by lia.
  rewrite bits_shiftr_mod by lia. rewrite testbit_mod by lia.
  replace (n - 1 <? n + bw x) with true by lia. reflexivity.
Qed.

Lemma rotr_range : forall w v n, 1 <= w -> 0 <= v < 2 ^ w -> 0 <= rotr w v n < 2 ^ w.
Proof.
  intros w v n Hw Hv. unfold rotr.
  pose proof (Z.mod_pos_bound n w ltac:(lia)) as Hm. set (m := n mod w) in *.
  pose proof (pow2_pos m ltac:(lia)). pose proof (pow2_pos (w - m) ltac:(lia)).
  pose proof (Z.mod_pos_bound v (2 ^ m) ltac:(lia)).
  assert (E : 2 ^ w = 2 ^ m * 2 ^ (w - m)) by (rewrite <- pow2_add by lia; f_equal; lia).
  assert (0 <= v / 2 ^ m) by (apply Z.div_pos; lia).
  assert (v / 2 ^ m < 2 ^ (w - m)) by (apply Z.div_lt_upper_bound; lia).
  assert ((v mod 2 ^ m) * 2 ^ (w - m) <= (2 ^ m - 1) * 2 ^ (w - m)) by (apply Z.mul_le_mono_nonneg_r; lia).
  split; [nia|]. rewrite E. lia.
Qed.

Lemma rotr_testbit : forall w v n i, 1 <= w -> 0 <= v < 2 ^ w -> 0 <= i < w ->
  Z.testbit (rotr w v n) i = Z.testbit v ((i + n) mod w).
Proof.
  intros w v n i Hw Hv Hi. unfold rotr.
  pose proof (Z.mod_pos_bound n w ltac:(lia)) as Hm.
  assert (Ei : (i + n) mod w = (i + n mod w) mod w) by (rewrite Zplus_mod_idemp_r; reflexivity).
  rewrite Ei. clear Ei. set (m := n mod w) in *.
  pose proof (pow2_pos m ltac:(lia)).
  assert (E : 2 ^ w = 2 ^ (w - m) * 2 ^ m) by (rewrite <- pow2_add by lia; f_equal; lia).
  assert (H0 : 0 <= v / 2 ^ m) by (apply Z.div_pos; lia).
  assert (H1 : v / 2 ^ m < 2 ^ (w - m)) by (apply Z.div_lt_upper_bound; lia).
  rewrite Z.add_comm, <- lor_shift_add by lia.
  rewrite Z.lor_spec. destruct (Z_lt_dec i (w - m)) as [L|L].
  - rewrite Z.shiftl_spec_low by lia. cbn [orb].
    rewrite <- Z.shiftr_div_pow2, Z.shiftr_spec by lia. rewrite Z.mod_small by lia. reflexivity.
  - rewrite Z.shiftl_spec by lia. rewrite (testbit_small (v / 2 ^ m) (w - m)) by lia.
    rewrite orb_false_r, testbit_mod by lia. replace (i - (w - m) <? m) with true by lia.
    replace ((i + m) mod w) with (i - (w - m)); [reflexivity|].
    apply Z.mod_unique with 1; lia.
Qed.

Lemma ROR_C_ok : forall x n, wf x -> 1 <= bw x -> n <> 0 ->
  ROR_C x n = Ok (bits (bw x) (rotr (bw x) (bv x) n),
                  bitv (Z.testbit (rotr (bw x) (bv x) n) (bw x - 1))).
Proof.
  intros x n Hx H1 Hn. unfold ROR_C.
  replace (n =? 0) with false by lia. cbn [negb assert_ bind].
  replace (bw x =? 0) with false by lia.
  pose proof (Z.mod_pos_bound n (bw x) ltac:(lia)) as Hm. set (m := n mod bw x) in *.
  rewrite LSR_ok, LSL_ok by (auto; lia). cbn [bind].
  destruct Hx as (Hw & Hv & Hmk).
  set (lo := bits (bw x) (bv x / 2 ^ m)). set (hi := bits (bw x) (bv x * 2 ^ (bw x - m))).
  rewrite (or_ok lo (VBits hi) (bv hi)); [|apply wf_bits; lia|reflexivity].
  cbn [bind]. replace (wide_operand lo (VBits hi)) with (bw x) by (cbn [wide_operand lo hi bits bw]; lia).
  assert (E : Z.lor (bv lo) (bv hi) = rotr (bw x) (bv x) n).
  { apply (bits_ext _ _ (bw x)).
    - pose proof (wf_bits (bw x) (Z.lor (bv lo) (bv hi)) Hw) as (_ & B & _).
      assert (Z.lor (bv lo) (bv hi) = bv (bits (bw x) (Z.lor (bv lo) (bv hi)))) as ->; [|exact B].
      apply Z.bits_inj'. intros i Hi. change (bv (bits (bw x) (Z.lor (bv lo) (bv hi)))) with (Z.lor (bv lo) (bv hi) mod 2 ^ bw x).
      rewrite testbit_mod by lia. destruct (i <? bw x) eqn:L; [reflexivity|].
      rewrite Z.lor_spec. unfold lo, hi. rewrite !bits_bv, !testbit_mod, L by lia. reflexivity.
    - apply rotr_range; lia.
    - intros i Hi. rewrite rotr_testbit by lia. rewrite Z.lor_spec. unfold lo, hi.
      rewrite !bits_bv, !testbit_mod by lia. replace (i <? bw x) with true by lia. cbn [andb].
      assert (Ei : (i + n) mod bw x = (i + m) mod bw x) by (unfold m; rewrite Zplus_mod_idemp_r; reflexivity).
      rewrite Ei. rewrite <- Z.shiftr_div_pow2, Z.shiftr_spec by lia.
      rewrite <- Z.shiftl_mul_pow2 by lia.
      destruct (Z_lt_dec i (bw x - m)) as [L|L].
      + rewrite Z.shiftl_spec_low by lia. rewrite orb_false_r, Z.mod_small by lia. reflexivity.
      + rewrite (testbit_small (bv x) (bw x) (i + m)) by lia. cbn [orb].
        rewrite Z.shiftl_spec by lia. f_equal. apply Z.mod_unique with 1; lia. }
  rewrite get_bit_bitv by lia. cbn [bind]. rewrite E. rewrite bits_bv.
  rewrite Z.mod_small by (apply rotr_range; lia). reflexivity.
Qed.

Lemma RRX_C_ok : forall x c, wf x -> 1 <= bw x ->
  RRX_C x (bitv c) = Ok (bits (bw x) ((if c then 1 else 0) * 2 ^ (bw x - 1) + bv x / 2),
                         bitv (Z.testbit (bv x) 0)).
Proof.
  intros x c Hx H1. unfold RRX_C. assert (Hx' := Hx). destruct Hx' as (Hw & Hv & Hm).
  rewrite getslice_simple by (auto; lia). cbn [bind].
  rewrite mod_bits; [|apply wf_bitv|apply wf_bits; lia]. cbn [bind].
  rewrite get_bit_bitv by lia. cbn [bind]. do 2 f_equal.
  assert (0 <= bv x / 2 < 2 ^ (bw x - 1)).
  { rewrite pow2_succ_split in Hv by lia. split; [apply Z.div_pos; lia|apply Z.div_lt_upper_bound; lia]. }
  assert (bv x / 2 mod 2 ^ (bw x - 1) = bv x / 2) by (apply Z.mod_small; lia).
  rewrite Z.shiftr_div_pow2, Z.pow_1_r by lia.
  unfold cat. cbn [bits bw bv bitv]. rewrite H0. replace (1 + (bw x - 1)) with (bw x) by lia.
  symmetry. apply bits_small. rewrite (pow2_succ_split (bw x)) by lia. destruct c; lia.
Qed.

Lemma addc_ok : forall x y c, wf x -> wf y -> bw x = bw y -> 2 <= bw x ->
  let w := bw x in
  let sum := bv x + bv y + bv c in
  let r := bits w sum in
  let flip := fun b => if bv b <? 2 ^ (w - 1) then b else bits w (2 ^ w - 1 - bv b) in
  AddWithCarry x y c =
    Ok ((flip x, flip y),
        (flip r, bitv (negb (sum mod 2 ^ w =? sum)),
         bitv (negb (twos w sum =? twos w (bv x) + twos w (bv y) + bv c)))).
Proof.
  intros x y c Hx Hy Hw H2 w sum r flip. unfold AddWithCarry.
  rewrite Hw, Z.eqb_refl. cbn [assert_ bind].
  destruct (signed_value x Hx H2) as (x' & Ex & Ex').
  destruct (signed_value y Hy ltac:(lia)) as (y' & Ey & Ey').
  rewrite Ex, Ey. cbn [bind]. rewrite <- Hw. rewrite init_int by lia. cbn [bind].
  destruct (signed_value (bits (bw x) sum) (wf_bits (bw x) sum ltac:(lia)) H2) as (r' & Er & Er').
  cbn [bits bw bv] in Er, Er'. unfold bs_unsigned. fold sum. cbv zeta.
  change (bv (bits (bw x) sum)) with (sum mod 2 ^ bw x).
  assert (Er2 : bs_signed (bits (bw x) sum) = Ok (r', twos (bw x) sum))
    by (rewrite <- (twos_mod (bw x) sum) by lia; exact Er).
  rewrite Er2. cbn [bind]. subst x' y' r'.
  unfold flip, r, w. rewrite <- Hw. cbn [bits bw bv].
  f_equal. f_equal. f_equal; [f_equal|].
  - destruct (sum mod 2 ^ bw x =? sum); reflexivity.
  - destruct (twos (bw x) sum =? _); reflexivity.
Qed.

(** Width of at most one: [signed] is 0. *)
Lemma addc_short : forall x y c, wf x -> wf y -> bw x = bw y -> bw x < 2 ->
  let sum := bv x + bv y + bv c in
  AddWithCarry x y c =
    Ok ((x, y), (bits (bw x) sum, bitv (negb (sum mod 2 ^ bw x =? sum)), bitv (negb (bv c =? 0)))).
Proof.
  intros x y c Hx Hy Hw H2 sum. unfold AddWithCarry.
  rewrite Hw, Z.eqb_refl. cbn [assert_ bind].
  rewrite !signed_short by lia. cbn [bind]. rewrite init_int by (destruct Hy; lia). cbn [bind].
  rewrite signed_short by (cbn [bits bw]; lia). cbn [bind]. unfold bs_unsigned. fold sum.
  change (bv (bits (bw y) sum)) with (sum mod 2 ^ bw y). do 2 f_equal. f_equal; [f_equal|].
  - destruct (sum mod 2 ^ bw y =? sum); reflexivity.
  - change (0 + 0 + bv c) with (bv c). rewrite Z.eqb_sym. destruct (bv c =? 0); reflexivity.
Qed.

Lemma carry_iff : forall w s, 0 <= w -> 0 <= s -> negb (s mod 2 ^ w =? s) = (2 ^ w <=? s).
Proof.
  intros w s Hw Hs. pose proof (pow2_pos w Hw). pose proof (Z.mod_pos_bound s (2 ^ w) ltac:(lia)).
  destruct (2 ^ w <=? s) eqn:L.
  - destruct (s mod 2 ^ w =? s) eqn:E; [lia|reflexivity].
  - rewrite Z.mod_small by lia. rewrite Z.eqb_refl. reflexivity.
Qed.

Lemma overflow_iff : forall w a b c, 1 <= w ->
  let s := twos w a + twos w b + c in
  negb (twos w (a + b + c) =? s) = negb ((- 2 ^ (w - 1) <=? s) && (s <? 2 ^ (w - 1))).
Proof.
  intros w a b c Hw s.
  pose proof (twos_range w a Hw) as [Ra Ma]. pose proof (twos_range w b Hw) as [Rb Mb].
  pose proof (twos_range w (a + b + c) Hw) as [R M].
  assert (Es : s mod 2 ^ w = (a + b + c) mod 2 ^ w).
  { pose proof (pow2_pos w ltac:(lia)) as P.
    pose proof (Z.div_mod (twos w a) (2 ^ w) ltac:(lia)) as D1. pose proof (Z.div_mod a (2 ^ w) ltac:(lia)) as D2.
    pose proof (Z.div_mod (twos w b) (2 ^ w) ltac:(lia)) as D3. pose proof (Z.div_mod b (2 ^ w) ltac:(lia)) as D4.
    replace s with (a + b + c + (twos w a / 2 ^ w - a / 2 ^ w + twos w b / 2 ^ w - b / 2 ^ w) * 2 ^ w).
    - apply Z.mod_add. lia.
    - unfold s. rewrite Ma in D1. rewrite Mb in D3. lia. }
  destruct ((- 2 ^ (w - 1) <=? s) && (s <? 2 ^ (w - 1))) eqn:L.
  - rewrite <- (twos_unique w (a + b + c) s) by (auto; lia). rewrite Z.eqb_refl. reflexivity.
  - destruct (twos w (a + b + c) =? s) eqn:E; [lia|reflexivity].
Qed.

Lemma eq_text_ok : forall b s n, wf b -> bin_text s -> n = be_number 2 (text_bits s) ->
  eq_text b s = Ok ((bw b =? strlen s) && (bv b =? n)).
Proof.
  intros b s n Hb Hs ->. unfold eq_text, bs_eq. rewrite init_text by assumption. reflexivity.
Qed.

(** A finite sweep, with parameters left symbolic, proves a pointwise equation. *)
Lemma sweep : forall (A : Type) (f g : Z -> A) n,
  map f (py_range n) = map g (py_range n) -> forall v, 0 <= v < n -> f v = g v.
Proof.
  intros A f g n H v Hv.
  assert (In v (py_range n)) as Hin.
  { unfold py_range. apply in_map_iff. exists (Z.to_nat v). split; [lia|apply in_seq; lia]. }
  revert H Hin. generalize (py_range n) as l. induction l as [|a l IH]; cbn [map]; intros H Hin.
  - destruct Hin.
  - injection H as H1 H2. destruct Hin as [->|Hin]; [exact H1|exact (IH H2 Hin)].
Qed.

Lemma wf_width_bits : forall b w, wf b -> bw b = w -> b = bits w (bv b) /\ 0 <= bv b < 2 ^ w.
Proof. intros b w H <-. split; [apply wf_eq_bits; exact H|apply H]. Qed.

Lemma expand_ok : forall v c, 0 <= v < 4096 ->
  ThumbExpandImm_C (bits 12 v) c =
  Ok (bits 32 (expand_imm v), if imm_rotated v then bitv (Z.testbit (expand_imm v) 31) else c).
Proof.
  intros v c Hv.
  apply (sweep _ (fun v => ThumbExpandImm_C (bits 12 v) c)
           (fun v => Ok (bits 32 (expand_imm v), if imm_rotated v then bitv (Z.testbit (expand_imm v) 31) else c)) 4096);
  [|exact Hv]. vm_compute. reflexivity.
Qed.

Lemma decode_shift_ok : forall t n, 0 <= t < 4 -> 0 <= n < 32 ->
  DecodeImmShift (bits 2 t) (bits 5 n) = Ok (imm_shift t n).
Proof.
  intros t n Ht Hn.
  apply (sweep _ (fun n => DecodeImmShift (bits 2 t) (bits 5 n)) (fun n => Ok (imm_shift t n)) 32); [|exact Hn].
  apply (sweep _ (fun t => map (fun n => DecodeImmShift (bits 2 t) (bits 5 n)) (py_range 32))
               (fun t => map (fun n => Ok (imm_shift t n)) (py_range 32)) 4); [|exact Ht].
  vm_compute. reflexivity.
Qed.

Lemma lsl_carry : forall w v n, 0 <= w -> 0 <= v < 2 ^ w -> 0 < n ->
  Z.testbit (v * 2 ^ n) w = (n <=? w) && Z.testbit v (w - n).
Proof.
  intros w v n Hw Hv Hn. rewrite <- Z.shiftl_mul_pow2 by lia. destruct (n <=? w) eqn:E; cbn [andb].
  - apply Z.shiftl_spec. lia.
  - apply Z.shiftl_spec_low. lia.
Qed.

Lemma twos_testbit : forall w v i, 1 <= w -> 0 <= v < 2 ^ w -> 0 <= i ->
  Z.testbit (twos w v) i = Z.testbit v (Z.min i (w - 1)).
Proof.
  intros w v i Hw Hv Hi. unfold twos. rewrite Z.mod_small by lia.
  destruct (Z_lt_dec i w) as [L|L].
  - replace (Z.min i (w - 1)) with i by lia. destruct (v <? 2 ^ (w - 1)); [reflexivity|].
    replace (v - 2 ^ w) with (v + (-1) * 2 ^ w) by lia.
    assert (T := testbit_mod (v + (-1) * 2 ^ w) w i ltac:(lia) Hi).
    rewrite Z.mod_add in T by (pose proof (pow2_pos w); lia).
    rewrite testbit_mod in T by lia. replace (i <? w) with true in T by lia. symmetry. exact T.
  - replace (Z.min i (w - 1)) with (w - 1) by lia. rewrite testbit_top by lia.
    rewrite Z.ltb_antisym. destruct (2 ^ (w - 1) <=? v) eqn:E; cbn [negb].
    + assert (N : v - 2 ^ w < 0) by lia. assert (P := pow2_le w i ltac:(lia)).
      rewrite <- (Z.opp_involutive (v - 2 ^ w)), Z.bits_opp by lia.
      rewrite (testbit_small (Z.pred (- (v - 2 ^ w))) w i) by lia. reflexivity.
    + apply (testbit_small v w); lia.
Qed.

Lemma Shift_C_ok : forall x t n c, wf x -> 1 <= bw x -> 0 <= n -> (t = SR_RRX -> n = 1) ->
  Shift_C x t n (bitv c) =
  Ok (bits (bw x) (fst (shift_result t (bw x) (bv x) n c)), bitv (snd (shift_result t (bw x) (bv x) n c))).
Proof.
  intros x t n c Hx H1 Hn Ht. unfold Shift_C, shift_result.
  assert (Hx' := Hx). destruct Hx' as (Hw & Hv & Hm).
  assert (sr_eqb t SR_RRX && negb (n =? 1) = false) as ->.
  { destruct t; try reflexivity. rewrite Ht by reflexivity. reflexivity. }
  cbn [negb assert_ bind]. destruct (n =? 0) eqn:E0; cbn [orb].
  { cbn [fst snd]. rewrite (wf_eq_bits x Hx) at 1. reflexivity. }
  destruct t; cbn [sr_eqb sr_value Z.eqb Pos.eqb fst snd].
  - rewrite (wf_eq_bits x Hx) at 1. reflexivity.
  - rewrite LSL_C_ok, lsl_carry by (auto; lia). do 2 f_equal. symmetry. apply bits_mod_eq; lia.
  - rewrite LSR_C_ok by (auto; lia). reflexivity.
  - rewrite ASR_C_ok, twos_testbit by (auto; lia). do 2 f_equal. symmetry. apply bits_mod_eq; lia.
  - rewrite ROR_C_ok, rotr_testbit by (auto; lia). do 4 f_equal.
    replace (bw x - 1 + n) with (n - 1 + 1 * bw x) by lia. apply Z.mod_add. lia.
  - rewrite RRX_C_ok by (auto; lia). reflexivity.
Qed.
