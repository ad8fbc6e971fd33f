(** * Proofs about the bitstring operators *)
From Verif Require Import BitstringModel SpecBits BitFacts.
From Coq Require Import Lia ZifyBool.

Lemma pow2_succ_split : forall w, 1 <= w -> 2 ^ w = 2 * 2 ^ (w - 1).
Proof. intros w Hw. rewrite <- Z.pow_succ_r by lia. f_equal. lia. Qed.

Lemma pow2_add : forall a b, 0 <= a -> 0 <= b -> 2 ^ (a + b) = 2 ^ a * 2 ^ b.
Proof. intros. apply Z.pow_add_r; lia. Qed.

Lemma pow2_le : forall a b, 0 <= a <= b -> 2 ^ a <= 2 ^ b.
Proof. intros. apply Z.pow_le_mono_r; lia. Qed.

Lemma testbit_top : forall v w, 1 <= w -> 0 <= v < 2 ^ w ->
  Z.testbit v (w - 1) = (2 ^ (w - 1) <=? v).
Proof.
  intros v w Hw Hv. rewrite Z.testbit_eqb by lia.
  pose proof (pow2_succ_split w Hw). pose proof (pow2_pos (w - 1) ltac:(lia)).
  destruct (Z.leb_spec (2 ^ (w - 1)) v).
  - assert (v / 2 ^ (w - 1) = 1) as -> by (symmetry; apply (Z.div_unique _ _ _ (v - 2 ^ (w-1))); lia).
    reflexivity.
  - rewrite Z.div_small by lia. reflexivity.
Qed.

Lemma land_mask_lnot : forall v w, 0 <= w -> 0 <= v < 2 ^ w ->
  Z.land (2 ^ w - 1) (Z.lnot v) = 2 ^ w - 1 - v.
Proof.
  intros v w Hw Hv. rewrite Z.land_comm, land_mask by lia.
  unfold Z.lnot. symmetry. apply (Z.mod_unique _ _ (-1)); lia.
Qed.

Lemma lor_shift_add : forall x y n, 0 <= n -> 0 <= y < 2 ^ n ->
  Z.lor (Z.shiftl x n) y = x * 2 ^ n + y.
Proof.
  intros x y n Hn Hy. rewrite <- Z.shiftl_mul_pow2 by lia.
  assert (D : Z.land (Z.shiftl x n) y = 0).
  { apply Z.bits_inj'. intros i Hi. rewrite Z.land_spec, Z.testbit_0_l.
    destruct (Z.lt_ge_cases i n).
    - rewrite Z.shiftl_spec_low by lia. reflexivity.
    - rewrite (testbit_small y n) by lia. apply andb_false_r. }
  rewrite Z.add_nocarry_lxor by auto. symmetry. now apply Z.lxor_lor.
Qed.

(** ** Inversion, signed *)
Lemma invert_ok : forall b, wf b -> bs_invert b = Ok (bits (bw b) (2 ^ bw b - 1 - bv b)).
Proof.
  intros b (Hw & Hv & Hm). unfold bs_invert. rewrite init_int by lia. simpl. unfold bs_set.
  rewrite Hm, land_mask_lnot by lia. reflexivity.
Qed.

Lemma inverted_ok : forall b, wf b -> bs_inverted b = Ok (bits (bw b) (2 ^ bw b - 1 - bv b)).
Proof.
  intros b (Hw & Hv & Hm). unfold bs_inverted. rewrite init_int by lia.
  rewrite Hm, land_mask_lnot by lia. reflexivity.
Qed.

Lemma bit_complement : forall w v i, 0 <= v < 2 ^ w -> 0 <= i < w ->
  Z.testbit (2 ^ w - 1 - v) i = negb (Z.testbit v i).
Proof.
  intros w v i Hv Hi. rewrite <- land_mask_lnot by lia.
  rewrite Z.land_comm, land_mask by lia. rewrite testbit_mod by lia.
  rewrite Z.lnot_spec by lia. destruct (Z.ltb_spec i w); [reflexivity|lia].
Qed.

Lemma signed_short : forall b, bw b < 2 -> bs_signed b = Ok (b, 0).
Proof. intros b H. unfold bs_signed. destruct (Z.ltb_spec (bw b) 2); [reflexivity|lia]. Qed.

Lemma signed_pos : forall b, wf b -> 2 <= bw b -> bv b < 2 ^ (bw b - 1) ->
  bs_signed b = Ok (b, bv b).
Proof.
  intros b (Hw & Hv & Hm) H2 Hs. unfold bs_signed.
  destruct (Z.ltb_spec (bw b) 2); [lia|].
  rewrite land1_testbit by lia. rewrite testbit_top by lia.
  destruct (Z.leb_spec (2 ^ (bw b - 1)) (bv b)); [lia|].
  change (negb (0 =? 0)) with false. cbv iota.
  rewrite shl1_ones, land_mask, Z.mod_small by lia. reflexivity.
Qed.

Lemma signed_neg : forall b, wf b -> 2 <= bw b -> 2 ^ (bw b - 1) <= bv b ->
  bs_signed b = Ok (bits (bw b) (2 ^ bw b - 1 - bv b), bv b - 2 ^ bw b).
Proof.
  intros b Hwf H2 Hs. pose proof Hwf as (Hw & Hv & Hm). unfold bs_signed.
  destruct (Z.ltb_spec (bw b) 2); [lia|].
  rewrite land1_testbit by lia. rewrite testbit_top by lia.
  destruct (Z.leb_spec (2 ^ (bw b - 1)) (bv b)); [|lia].
  change (negb (1 =? 0)) with true. cbv iota.
  rewrite invert_ok by auto. simpl bind. cbn [bits bv].
  rewrite shl1_ones, land_mask by lia.
  rewrite (Z.mod_small (2 ^ bw b - 1 - bv b)) by lia.
  pose proof (pow2_succ_split (bw b) ltac:(lia)).
  rewrite Z.mod_small by lia. do 2 f_equal. lia.
Qed.

Lemma signed_total : forall b, wf b -> exists b' z, bs_signed b = Ok (b', z) /\ wf b' /\ bw b' = bw b.
Proof.
  intros b Hwf. destruct (Z.lt_ge_cases (bw b) 2).
  - rewrite signed_short by auto. eauto.
  - destruct (Z.lt_ge_cases (bv b) (2 ^ (bw b - 1))).
    + rewrite signed_pos by auto. eauto.
    + rewrite signed_neg by (auto; lia). do 2 eexists. split; [reflexivity|].
      split; [apply wf_bits; lia|reflexivity].
Qed.

(** ** Bits *)
Lemma get_bit_ok : forall b i, 0 <= i ->
  bs_get_bit b i = Ok (mkbs 1 (if bit b i then 1 else 0) 1).
Proof.
  intros b i Hi. unfold bs_get_bit, py_shr, bind.
  destruct (Z.ltb_spec i 0); [lia|]. destruct (Z.ltb_spec i 0); [lia|].
  rewrite land1_testbit by lia. rewrite init_int by lia. unfold bit.
  destruct (Z.testbit (bv b) i); reflexivity.
Qed.

Lemma get_bit_neg : forall b i, i < 0 -> 0 <= bw b + i ->
  bs_get_bit b i = Ok (mkbs 1 (if bit b (bw b + i) then 1 else 0) 1).
Proof.
  intros b i Hi Hj. unfold bs_get_bit, py_shr, bind.
  destruct (Z.ltb_spec i 0); [|lia]. destruct (Z.ltb_spec (bw b + i) 0); [lia|].
  rewrite land1_testbit by lia. rewrite init_int by lia. unfold bit.
  destruct (Z.testbit (bv b) (bw b + i)); reflexivity.
Qed.

Lemma get_bit_err : forall b i, i < 0 -> bw b + i < 0 -> bs_get_bit b i = Err ValueError.
Proof.
  intros b i Hi Hj. unfold bs_get_bit, py_shr, bind.
  destruct (Z.ltb_spec i 0); [|lia]. destruct (Z.ltb_spec (bw b + i) 0); [reflexivity|lia].
Qed.

(** ** Concatenation *)
Definition cat (a b : bs) : bs :=
  mkbs (bw a + bw b) (bv a * 2 ^ bw b + bv b) (2 ^ (bw a + bw b) - 1).

Lemma cat_ok : forall a b, wf a -> wf b -> bs_cat a b = Ok (cat a b).
Proof.
  intros a b (Hwa & Hva & _) (Hwb & Hvb & _). unfold bs_cat, py_shl, bind.
  destruct (Z.ltb_spec (bw a + bw b) 0); [lia|].
  destruct (Z.ltb_spec (bw b) 0); [lia|].
  rewrite shl1_ones, lor_shift_add by lia. reflexivity.
Qed.

Lemma cat_wf : forall a b, wf a -> wf b -> wf (cat a b).
Proof.
  intros a b (Hwa & Hva & _) (Hwb & Hvb & _). unfold wf, cat; simpl.
  rewrite pow2_add by lia. pose proof (pow2_pos (bw b)). nia.
Qed.

Lemma mod_bits : forall a b, wf a -> wf b -> bs_mod a (VBits b) = Ok (cat a b).
Proof. intros. simpl. now apply cat_ok. Qed.

Lemma bit_cat : forall a b i, wf a -> wf b -> 0 <= i ->
  bit (cat a b) i = if i <? bw b then bit b i else bit a (i - bw b).
Proof.
  intros a b i (Hwa & Hva & _) (Hwb & Hvb & _) Hi. unfold bit, cat; simpl.
  rewrite <- lor_shift_add by lia. rewrite Z.lor_spec.
  destruct (Z.ltb_spec i (bw b)).
  - rewrite Z.shiftl_spec_low by lia. reflexivity.
  - rewrite Z.shiftl_spec by lia. rewrite (testbit_small (bv b) (bw b)) by lia.
    apply orb_false_r.
Qed.

(** ** Slices *)
Lemma range_count_stop : forall i stop step, step <> 0 ->
  (if 0 <? step then i <? stop else stop <? i) = false -> range_count i stop step = 0.
Proof.
  intros i stop step Hs H. unfold range_count. destruct (Z.ltb_spec 0 step).
  - apply Z.ltb_ge in H. assert ((stop - i + step - 1) / step <= 0); [|lia].
    apply Z.lt_succ_r. apply Z.div_lt_upper_bound; lia.
  - apply Z.ltb_ge in H. assert ((i - stop - step - 1) / - step <= 0); [|lia].
    apply Z.lt_succ_r. apply Z.div_lt_upper_bound; lia.
Qed.

Lemma range_count_step : forall i stop step, step <> 0 ->
  (if 0 <? step then i <? stop else stop <? i) = true ->
  range_count i stop step = 1 + range_count (i + step) stop step /\
  0 <= range_count (i + step) stop step.
Proof.
  intros i stop step Hs H. unfold range_count. destruct (Z.ltb_spec 0 step).
  - apply Z.ltb_lt in H.
    replace (stop - i + step - 1) with ((stop - (i + step) + step - 1) + 1 * step) by lia.
    rewrite Z.div_add by lia.
    assert (0 <= (stop - (i + step) + step - 1) / step) by (apply Z.div_pos; lia). lia.
  - apply Z.ltb_lt in H.
    replace (i - stop - step - 1) with ((i + step - stop - step - 1) + 1 * (- step)) by lia.
    rewrite Z.div_add by lia.
    assert (0 <= (i + step - stop - step - 1) / - step) by (apply Z.div_pos; lia). lia.
Qed.

Lemma range_count_nonneg : forall i stop step, 0 <= range_count i stop step.
Proof. intros. unfold range_count. destruct (0 <? step); lia. Qed.

Lemma range_count_le : forall i stop step, step <> 0 -> range_count i stop step <= Z.abs (stop - i).
Proof.
  intros i stop step Hs. unfold range_count. destruct (Z.ltb_spec 0 step).
  - assert ((stop - i + step - 1) / step <= Z.abs (stop - i)); [|lia].
    apply Z.lt_succ_r. apply Z.div_lt_upper_bound; nia.
  - assert ((i - stop - step - 1) / - step <= Z.abs (stop - i)); [|lia].
    apply Z.lt_succ_r. apply Z.div_lt_upper_bound; nia.
Qed.

Lemma slice_loop_ok : forall b stop step, step <> 0 ->
  forall fuel i acc, wf acc ->
  (range_count i stop step <= Z.of_nat fuel) ->
  (forall k, 0 <= k < range_count i stop step -> 0 <= i + k * step) ->
  exists r, slice_loop fuel b i stop step acc = Ok r /\ wf r /\
    bw r = bw acc + range_count i stop step /\
    (forall k, 0 <= k < bw acc -> bit r k = bit acc k) /\
    (forall k, 0 <= k < range_count i stop step -> bit r (bw acc + k) = bit b (i + k * step)).
Proof.
  intros b stop step Hs. induction fuel as [|f IH]; intros i acc Hacc Hfuel Hpos.
  - cbn [slice_loop].
    destruct (if 0 <? step then i <? stop else stop <? i) eqn:E.
    + pose proof (range_count_step _ _ _ Hs E). lia.
    + rewrite (range_count_stop _ _ _ Hs E). exists acc.
      repeat split; auto; try apply Hacc; try lia; intros; lia.
  - cbn [slice_loop].
    destruct (if 0 <? step then i <? stop else stop <? i) eqn:E.
    + pose proof (range_count_step _ _ _ Hs E) as [Hc Hc0].
      assert (Hi : 0 <= i) by (specialize (Hpos 0 ltac:(lia)); lia).
      rewrite get_bit_ok by lia. cbn [bind].
      set (x := mkbs 1 (if bit b i then 1 else 0) 1).
      assert (Hx : wf x) by (unfold wf, x; simpl; destruct (bit b i); change (2^1) with 2; lia).
      rewrite mod_bits by auto. cbn [bind].
      destruct (IH (i + step) (cat x acc)) as (r & E1 & W & Wd & B1 & B2).
      * now apply cat_wf.
      * lia.
      * intros k Hk. specialize (Hpos (k + 1) ltac:(lia)). lia.
      * exists r. split; [exact E1|]. split; [exact W|].
        assert (Wc : bw (cat x acc) = bw acc + 1) by (unfold cat, x; cbn [bw]; lia).
        split; [lia|]. pose proof Hacc as (Ha1 & _). split.
        -- intros k Hk. rewrite B1 by lia. rewrite bit_cat by (auto; lia).
           destruct (Z.ltb_spec k (bw acc)); [reflexivity|lia].
        -- intros k Hk. destruct (Z.eq_dec k 0) as [->|Hk0].
           ++ rewrite Z.add_0_r. rewrite B1 by lia. rewrite bit_cat by (auto; lia).
              destruct (Z.ltb_spec (bw acc) (bw acc)); [lia|].
              rewrite Z.sub_diag. replace (i + 0 * step) with i by lia.
              unfold x, bit at 1; simpl. destruct (bit b i); reflexivity.
           ++ replace (bw acc + k) with (bw (cat x acc) + (k - 1)) by lia.
              rewrite B2 by lia. f_equal. lia.
    + rewrite (range_count_stop _ _ _ Hs E). exists acc.
      repeat split; auto; try apply Hacc; try lia; intros; lia.
Qed.

Lemma slice_clamp_eq : forall lo hi len x, lo <= hi -> (lo = 0 /\ hi = len) \/ (lo = -1 /\ hi = len - 1) ->
  0 <= len -> lo <= 0 -> slice_clamp lo hi len x = clamp lo hi (from_end len x).
Proof.
  intros lo hi len x H1 H2 H3 H4. unfold slice_clamp, clamp, from_end. cbv zeta.
  destruct (Z.ltb_spec x 0); [destruct (Z.ltb_spec (x + len) lo)|destruct (Z.ltb_spec hi x)]; lia.
Qed.

Lemma slice_indices_spec : forall s len, 0 <= len ->
  slice_indices s len = match slice_bounds s len with Some t => Ok t | None => Err ValueError end.
Proof.
  intros [st sp sk] len Hl. unfold slice_indices, slice_bounds. cbn [sl_start sl_stop sl_step].
  destruct sk as [[|p|p]|]; cbn [Z.eqb Z.ltb Z.compare]; try reflexivity;
    destruct st, sp; rewrite ?slice_clamp_eq by lia; reflexivity.
Qed.

Lemma slice_bounds_range : forall s len start stop step, 0 <= len ->
  slice_bounds s len = Some (start, stop, step) ->
  step <> 0 /\
  (0 < step -> 0 <= start <= len /\ 0 <= stop <= len) /\
  (step < 0 -> -1 <= start <= len - 1 /\ -1 <= stop <= len - 1).
Proof.
  intros [st sp sk] len start stop step Hl H. unfold slice_bounds, clamp in H. cbn [sl_start sl_stop sl_step] in H.
  destruct sk as [[|p|p]|]; inversion H; subst; clear H; (split; [lia|split]);
    intros; try lia; destruct st, sp; lia.
Qed.

Lemma range_pos_in : forall s len start stop step k, 0 <= len ->
  slice_bounds s len = Some (start, stop, step) ->
  0 <= k < range_count start stop step -> 0 <= start + k * step < len.
Proof.
  intros s len start stop step k Hl H Hk.
  destruct (slice_bounds_range _ _ _ _ _ Hl H) as (Hs & Hp & Hn).
  unfold range_count in Hk. destruct (Z.ltb_spec 0 step).
  - specialize (Hp ltac:(lia)).
    assert (Hk' : 0 <= k < (stop - start + step - 1) / step) by lia.
    pose proof (Z.mul_div_le (stop - start + step - 1) step ltac:(lia)).
    set (q := (stop - start + step - 1) / step) in *.
    assert (k * step <= (q - 1) * step) by (apply Z.mul_le_mono_nonneg_r; lia).
    assert (0 <= k * step) by (apply Z.mul_nonneg_nonneg; lia). lia.
  - specialize (Hn ltac:(lia)).
    assert (Hk' : 0 <= k < (start - stop - step - 1) / - step) by lia.
    pose proof (Z.mul_div_le (start - stop - step - 1) (- step) ltac:(lia)).
    set (q := (start - stop - step - 1) / - step) in *.
    assert (k * - step <= (q - 1) * - step) by (apply Z.mul_le_mono_nonneg_r; lia).
    assert (0 <= k * - step) by (apply Z.mul_nonneg_nonneg; lia). lia.
Qed.

Lemma getslice_ok : forall b s start stop step, wf b ->
  slice_bounds s (bw b) = Some (start, stop, step) ->
  exists r, bs_getslice b s = Ok r /\ wf r /\ bw r = range_count start stop step /\
    (forall k, 0 <= k < bw r -> bit r k = bit b (start + k * step)).
Proof.
  intros b s start stop step Hb H. pose proof Hb as (Hw & _).
  destruct (slice_bounds_range _ _ _ _ _ Hw H) as (Hs & _).
  unfold bs_getslice. rewrite slice_indices_spec, H by lia. cbn [bind].
  rewrite init_none. cbn [bind].
  destruct (slice_loop_ok b stop step Hs (Z.to_nat (Z.abs (stop - start))) start (bits 0 0))
    as (r & E & W & Wd & _ & B).
  - apply wf_bits; lia.
  - pose proof (range_count_le start stop step Hs). lia.
  - intros k Hk. pose proof (range_pos_in _ _ _ _ _ _ Hw H Hk). lia.
  - exists r. split; [exact E|]. split; [exact W|]. cbn [bits bw] in *. split; [lia|].
    intros k Hk. rewrite <- (B k) by lia. f_equal.
Qed.

Lemma getslice_err : forall b s, wf b -> slice_bounds s (bw b) = None ->
  bs_getslice b s = Err ValueError.
Proof.
  intros b s (Hw & _) H. unfold bs_getslice. rewrite slice_indices_spec, H by lia. reflexivity.
Qed.

Lemma clamp_id : forall a len, 0 <= a <= len -> clamp 0 len (from_end len a) = a.
Proof. intros. unfold clamp, from_end. destruct (Z.ltb_spec a 0); lia. Qed.

Lemma slice_bounds_sl : forall a b len, 0 <= a <= b -> b <= len ->
  slice_bounds (sl a b) len = Some (a, b, 1).
Proof.
  intros a b len Ha Hb. unfold slice_bounds, sl; cbn [sl_start sl_stop sl_step].
  rewrite !clamp_id by lia. reflexivity.
Qed.

(** [x[a:b]] for in-range bounds. *)
Lemma getslice_simple : forall x a b, wf x -> 0 <= a <= b -> b <= bw x ->
  bs_getslice x (sl a b) = Ok (bits (b - a) (Z.shiftr (bv x) a)).
Proof.
  intros x a b Hx Ha Hb.
  destruct (getslice_ok x (sl a b) a b 1 Hx (slice_bounds_sl a b _ Ha Hb)) as (r & E & W & Wd & B).
  assert (C : range_count a b 1 = b - a).
  { unfold range_count. change (0 <? 1) with true. cbv iota. rewrite Z.div_1_r. lia. }
  rewrite C in Wd. rewrite E. f_equal. apply wf_bit_ext; auto.
  - apply wf_bits; lia.
  - intros i Hi. rewrite B by lia. rewrite bit_bits by lia.
    destruct (Z.ltb_spec i (b - a)); [|lia]. cbn [andb]. rewrite Z.shiftr_spec by lia.
    unfold bit. f_equal. lia.
Qed.
