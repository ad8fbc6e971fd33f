(** * Proofs about assignment, extension, operators, queries and comparisons *)
From Verif Require Import BitstringModel SpecBits BitFacts BitOps BitText.
From Coq Require Import Lia ZifyBool.

(** ** Arithmetic *)
Lemma arith_some : forall f a o z v, wf a -> arith_operand o = Ok (Some z) -> f (bv a) z = Ok v ->
  bs_arith f a o = Ok (bits (bw a) v).
Proof.
  intros f a o z v Ha Ho Hf. unfold bs_arith. rewrite init_copy by auto. cbn [bind].
  rewrite Ho. cbn [bind]. rewrite Hf. cbn [bind]. destruct Ha as (Hw & Hv & ->).
  rewrite land_mask by lia. reflexivity.
Qed.

Lemma arith_operand_text : forall s, bin_text s ->
  arith_operand (VStr s) = Ok (Some (be_number 2 (text_bits s))).
Proof. intros s H. cbn [arith_operand]. rewrite init_text by auto. reflexivity. Qed.

Lemma arith_wf : forall f a o r, wf a -> bs_arith f a o = Ok r -> wf r /\ bw r = bw a.
Proof.
  intros f a o r Ha H. unfold bs_arith in H. rewrite init_copy in H by auto. cbn [bind] in H.
  destruct (arith_operand o) as [[z|]|e]; cbn [bind] in H; try discriminate.
  - destruct (f (bv a) z) as [v|e]; cbn [bind] in H; try discriminate. inversion H; subst.
    destruct Ha as (Hw & Hv & ->). rewrite land_mask by lia. split; [|reflexivity].
    apply (wf_bits (bw a) v). lia.
  - inversion H; subst. auto.
Qed.

(** ** Shifts and bitwise operators *)
Lemma lshift_ok : forall a n, wf a -> 0 <= n ->
  bs_lshift a (VInt n) = Ok (bits (bw a) (bv a * 2 ^ n)).
Proof.
  intros a n (Hw & _) Hn. unfold bs_lshift, py_shl. destruct (Z.ltb_spec n 0); [lia|]. cbn [bind].
  rewrite init_int by lia. rewrite Z.shiftl_mul_pow2 by lia. reflexivity.
Qed.
Lemma rshift_ok : forall a n, wf a -> 0 <= n ->
  bs_rshift a (VInt n) = Ok (bits (bw a) (bv a / 2 ^ n)).
Proof.
  intros a n (Hw & _) Hn. unfold bs_rshift, py_shr. destruct (Z.ltb_spec n 0); [lia|]. cbn [bind].
  rewrite init_int by lia. rewrite Z.shiftr_div_pow2 by lia. reflexivity.
Qed.

Lemma and_ok : forall a o z, wf a -> bit_operand o = Ok z ->
  bs_and a o = Ok (bits (bw a) (Z.land (bv a) z)).
Proof. intros a o z (Hw & _) H. unfold bs_and. rewrite H. cbn [bind]. now apply init_int. Qed.
Lemma wide_nonneg : forall a o, wf a -> 0 <= wide_operand a o.
Proof. intros a o (Hw & _). destruct o; simpl; lia. Qed.
Lemma or_ok : forall a o z, wf a -> bit_operand o = Ok z ->
  bs_or a o = Ok (bits (wide_operand a o) (Z.lor (bv a) z)).
Proof.
  intros a o z Ha H. unfold bs_or. rewrite H. cbn [bind]. apply init_int. now apply wide_nonneg.
Qed.
Lemma xor_ok : forall a o z, wf a -> bit_operand o = Ok z ->
  bs_xor a o = Ok (bits (wide_operand a o) (Z.lxor (bv a) z)).
Proof.
  intros a o z Ha H. unfold bs_xor. rewrite H. cbn [bind]. apply init_int. now apply wide_nonneg.
Qed.

(** ** Assignment *)
Lemma setbit_gen : forall b i z, wf b -> 0 <= i < bw b ->
  let v := Z.lor (Z.land (bv b) (Z.land (bm b) (Z.lnot (Z.shiftl 1 i)))) (Z.shiftl (Z.land z 1) i) in
  wf (mkbs (bw b) v (bm b)) /\
  (forall j, 0 <= j -> Z.testbit v j = if j =? i then Z.odd z else bit b j).
Proof.
  intros b i z (Hw & Hv & Hm) Hi v.
  assert (T : forall j, 0 <= j -> Z.testbit v j = if j =? i then Z.odd z else bit b j).
  { intros j Hj. unfold v. rewrite Z.lor_spec, !Z.land_spec, Z.lnot_spec by lia.
    rewrite Hm. rewrite !Z.shiftl_spec by lia.
    assert (M : Z.testbit (2 ^ bw b - 1) j = (j <? bw b)).
    { replace (2 ^ bw b - 1) with (Z.ones (bw b)) by (rewrite Z.ones_equiv; lia).
      destruct (Z.ltb_spec j (bw b)); [apply Z.ones_spec_low|apply Z.ones_spec_high]; lia. }
    rewrite M. unfold bit. destruct (Z.eqb_spec j i) as [->|Hne].
    - rewrite Z.sub_diag. rewrite !Z.bit0_odd. change (Z.odd 1) with true.
      rewrite land1_bit0. rewrite Z.bit0_odd. destruct (Z.odd z); cbn; rewrite ?andb_false_r; reflexivity.
    - assert (N : forall x, 0 <= x < 2 -> Z.testbit x (j - i) = false).
      { intros x Hx. destruct (Z.lt_ge_cases j i).
        - apply Z.testbit_neg_r. lia.
        - apply (testbit_small x 1); change (2 ^ 1) with 2; lia. }
      rewrite (N 1) by lia. rewrite (N (Z.land z 1)) by (rewrite land1_bit0; destruct (Z.testbit z 0); lia).
      rewrite orb_false_r. cbn [negb]. rewrite andb_true_r.
      destruct (Z.ltb_spec j (bw b)); [apply andb_true_r|].
      rewrite (testbit_small (bv b) (bw b)) by lia. reflexivity. }
  split; [|exact T].
  unfold wf; cbn [bw bv bm]. split; [lia|]. split; [|exact Hm].
  assert (v = v mod 2 ^ bw b) as ->.
  { apply Z.bits_inj'. intros j Hj. rewrite testbit_mod by lia.
    destruct (Z.ltb_spec j (bw b)); [reflexivity|]. rewrite T by lia.
    destruct (Z.eqb_spec j i); [lia|]. apply bit_above; [unfold wf; auto|lia]. }
  apply Z.mod_pos_bound. apply pow2_pos; lia.
Qed.

Definition bit_value (v : pyval) : res Z :=
  match v with
  | VInt z => Ok z
  | VBits x => if bw x =? 1 then Ok (bv x) else Err ValueError
  | _ => Err TypeError
  end.

Lemma setbit_ok : forall b i value z, wf b -> - bw b <= i < bw b -> bit_value value = Ok z ->
  exists r, bs_setbit b i value = Ok r /\ wf r /\ bw r = bw b /\
    forall j, 0 <= j < bw b -> bit r j = if j =? (if i <? 0 then bw b + i else i) then Z.odd z else bit b j.
Proof.
  intros b i value z Hb Hi Hv. unfold bs_setbit.
  destruct (Z.leb_spec (bw b) i); [lia|].
  assert (E : (match value with
            | VBits v => if negb (bw v =? 1) then Err ValueError else Ok (bv v)
            | VInt z => Ok z
            | _ => Err TypeError end) = Ok z).
  { destruct value; cbn in Hv; try discriminate; auto. destruct (bw b0 =? 1); cbn; auto; discriminate. }
  rewrite E. cbn [bind]. cbv zeta.
  set (k := if i <? 0 then bw b + i else i).
  assert (Hk : 0 <= k < bw b) by (unfold k; destruct (Z.ltb_spec i 0); lia).
  unfold py_shl. destruct (Z.ltb_spec k 0); [lia|]. cbn [bind].
  destruct (setbit_gen b k z Hb Hk) as [W T].
  eexists. split; [reflexivity|]. split; [exact W|]. split; [reflexivity|].
  intros j Hj. apply T. lia.
Qed.

Lemma setbit_high : forall b i value, bw b <= i -> bs_setbit b i value = Err IndexError.
Proof. intros b i value H. unfold bs_setbit. destruct (Z.leb_spec (bw b) i); [reflexivity|lia]. Qed.

Lemma setbit_low : forall b i value z, 0 <= bw b -> i < - bw b -> bit_value value = Ok z ->
  bs_setbit b i value = Err ValueError.
Proof.
  intros b i value z Hw Hi Hv. unfold bs_setbit. destruct (Z.leb_spec (bw b) i); [lia|].
  destruct value; cbn in Hv; try discriminate.
  - destruct (bw b0 =? 1) eqn:E; try discriminate. cbn [negb bind]. cbv zeta.
    destruct (Z.ltb_spec i 0); [|lia]. unfold py_shl. destruct (Z.ltb_spec (bw b + i) 0); [reflexivity|lia].
  - cbn [bind]. cbv zeta.
    destruct (Z.ltb_spec i 0); [|lia]. unfold py_shl. destruct (Z.ltb_spec (bw b + i) 0); [reflexivity|lia].
Qed.

Lemma setbit_badval : forall b i value e, i < bw b -> bit_value value = Err e ->
  bs_setbit b i value = Err e.
Proof.
  intros b i value e Hi Hv. unfold bs_setbit. destruct (Z.leb_spec (bw b) i); [lia|].
  destruct value; cbn in Hv; try (inversion Hv; subst; reflexivity); try discriminate.
  destruct (bw b0 =? 1); [discriminate|]. inversion Hv; reflexivity.
Qed.

(** the value stored by a slice assignment, before it is cut to the slice *)
Definition slice_value (v : pyval) : res bs :=
  match v with
  | VInt z => Ok (bits (if Z.shiftl 1 32 <? z then 64 else 32) z)
  | VStr s => bs_init (VStr s) None
  | VBits x => Ok x
  | _ => Err TypeError
  end.

Lemma slice_value_eq : forall v,
  (match v with
   | VInt z => bs_init (VInt z) None
   | VStr t => bs_init (VStr t) None
   | VBits v => Ok v
   | _ => Err TypeError end) = slice_value v.
Proof.
  intros []; cbn [slice_value]; auto. unfold bs_init; cbn [bs_raw bind].
  apply finish_ok. destruct (Z.shiftl 1 32 <? z); lia.
Qed.

Lemma setslice_ok : forall b s value start stop x, wf b ->
  slice_bounds s (bw b) = Some (start, stop, 1) -> start <= stop -> slice_value value = Ok x ->
  exists r, bs_setslice b s value = Ok r /\ wf r /\ bw r = bw b /\
    forall j, 0 <= j < bw b ->
      bit r j = if (start <=? j) && (j <? stop) then bit x (j - start) else bit b j.
Proof.
  intros b s value start stop x Hb Hs Hle Hx. pose proof Hb as (Hw & Hv & Hm).
  destruct (slice_bounds_range _ _ _ _ _ Hw Hs) as (_ & Hr & _). specialize (Hr ltac:(lia)).
  unfold bs_setslice. rewrite slice_indices_spec, Hs by lia. cbn [bind].
  change (negb (1 =? 1)) with false. cbv iota. rewrite slice_value_eq, Hx. cbn [bind].
  unfold py_shl. destruct (Z.ltb_spec (stop - start) 0); [lia|]. cbn [bind].
  destruct (Z.ltb_spec start 0); [lia|]. cbn [bind].
  rewrite shl1_ones by lia.
  set (mask := Z.shiftl (2 ^ (stop - start) - 1) start).
  set (v := Z.lor _ _).
  assert (M : forall j, 0 <= j -> Z.testbit mask j = (start <=? j) && (j <? stop)).
  { intros j Hj. unfold mask. rewrite Z.shiftl_spec by lia.
    replace (2 ^ (stop - start) - 1) with (Z.ones (stop - start)) by (rewrite Z.ones_equiv; lia).
    destruct (Z.leb_spec start j); cbn [andb].
    - destruct (Z.ltb_spec j stop); [apply Z.ones_spec_low|apply Z.ones_spec_high]; lia.
    - apply Z.testbit_neg_r. lia. }
  assert (T : forall j, 0 <= j -> Z.testbit v j =
     if (start <=? j) && (j <? stop) then bit x (j - start) else bit b j).
  { intros j Hj. unfold v. rewrite Z.lor_spec, !Z.land_spec, Z.lnot_spec, M by lia.
    rewrite Z.shiftl_spec by lia. unfold bit.
    destruct ((start <=? j) && (j <? stop)); cbn [negb]; rewrite ?andb_false_r, ?andb_true_r, ?orb_false_r; reflexivity. }
  eexists. split; [reflexivity|]. split; [|split; [reflexivity|intros; apply T; lia]].
  unfold wf; cbn [bw bv bm]. split; [lia|]. split; [|exact Hm].
  assert (v = v mod 2 ^ bw b) as ->.
  { apply Z.bits_inj'. intros j Hj. rewrite testbit_mod by lia.
    destruct (Z.ltb_spec j (bw b)); [reflexivity|]. rewrite T by lia.
    destruct (Z.leb_spec start j); cbn [andb]; [destruct (Z.ltb_spec j stop); [lia|]|];
      apply bit_above; auto. }
  apply Z.mod_pos_bound. apply pow2_pos; lia.
Qed.

Lemma setslice_err : forall b s value, wf b ->
  (slice_bounds s (bw b) = None -> bs_setslice b s value = Err ValueError) /\
  (forall start stop step, slice_bounds s (bw b) = Some (start, stop, step) -> step <> 1 ->
     bs_setslice b s value = Err ValueError) /\
  (forall start stop e, slice_bounds s (bw b) = Some (start, stop, 1) -> slice_value value = Err e ->
     bs_setslice b s value = Err e) /\
  (forall start stop x, slice_bounds s (bw b) = Some (start, stop, 1) -> slice_value value = Ok x ->
     stop < start -> bs_setslice b s value = Err ValueError).
Proof.
  intros b s value (Hw & _). unfold bs_setslice. rewrite slice_indices_spec by lia. repeat split.
  - intros ->. reflexivity.
  - intros start stop step -> H. cbn [bind]. destruct (Z.eqb_spec step 1); [lia|reflexivity].
  - intros start stop e -> H. cbn [bind]. change (negb (1 =? 1)) with false. cbv iota.
    rewrite slice_value_eq, H. reflexivity.
  - intros start stop x -> H Hlt. cbn [bind]. change (negb (1 =? 1)) with false. cbv iota.
    rewrite slice_value_eq, H. cbn [bind]. unfold py_shl.
    destruct (Z.ltb_spec (stop - start) 0); [reflexivity|lia].
Qed.

Lemma setitem_wf : forall b k v r, wf b -> bs_setitem b k v = Ok r -> wf r /\ bw r = bw b.
Proof.
  intros b k v r Hb H. pose proof Hb as (Hw & _). destruct k as [i|s|]; cbn [bs_setitem] in H; [| |discriminate].
  - destruct (Z.lt_ge_cases i (bw b)) as [Hi|Hi]; [|rewrite setbit_high in H by lia; discriminate].
    destruct (bit_value v) as [z|e] eqn:E; [|rewrite (setbit_badval _ _ _ e) in H by auto; discriminate].
    destruct (Z.lt_ge_cases i (- bw b)); [rewrite (setbit_low _ _ _ z) in H by auto; discriminate|].
    destruct (setbit_ok b i v z Hb ltac:(lia) E) as (r' & E' & W & Wd & _).
    rewrite E' in H; inversion H; subst; auto.
  - destruct (setslice_err b s v Hb) as (E1 & E2 & E3 & E4).
    destruct (slice_bounds s (bw b)) as [[[start stop] step]|] eqn:Eb;
      [|rewrite E1 in H by auto; discriminate].
    destruct (Z.eq_dec step 1) as [->|Hs]; [|rewrite (E2 start stop step) in H by auto; discriminate].
    destruct (slice_value v) as [x|e] eqn:Ev; [|rewrite (E3 start stop e) in H by auto; discriminate].
    destruct (Z.lt_ge_cases stop start); [rewrite (E4 start stop x) in H by auto; discriminate|].
    destruct (setslice_ok b s v start stop x Hb Eb ltac:(lia) Ev) as (r' & E' & W & Wd & _).
    rewrite E' in H; inversion H; subst; auto.
Qed.

(** ** Extension *)
Lemma lor_bit : forall x d, 0 <= d <= 1 -> Z.lor (Z.shiftl x 1) d = x * 2 + d.
Proof. intros x d Hd. rewrite lor_shift_add by (change (2 ^ 1) with 2; lia). change (2 ^ 1) with 2. reflexivity. Qed.

Lemma reduce_bits_ok : forall l, l <> [] -> Forall (fun d => 0 <= d <= 1) l ->
  reduce_bits l = Ok (be_number 2 l).
Proof.
  intros [|x l] Hne H; [congruence|]. cbn [reduce_bits]. f_equal.
  inversion H as [|? ? _ Hl]; subst. unfold be_number. cbn [number]. replace (0 * 2 + x) with x by lia.
  clear H Hne. revert x. induction l as [|d l IH]; intros x; [reflexivity|].
  inversion Hl; subst. cbn [fold_left number]. rewrite lor_bit by auto. now apply IH.
Qed.

Lemma init_bits_list : forall l, l <> [] -> Forall (fun d => 0 <= d <= 1) l ->
  bs_init (VSeq l) None = Ok (mkbs (Z.of_nat (List.length l)) (be_number 2 l) (2 ^ Z.of_nat (List.length l) - 1)).
Proof.
  intros l Hne H. unfold bs_init. cbn [bs_raw]. rewrite reduce_bits_ok by auto. cbn [bind].
  rewrite finish_ok by lia. f_equal. apply bits_small. now apply be_bound.
Qed.

Lemma be_repeat : forall s n, 0 <= s <= 1 ->
  be_number 2 (repeat s n) = s * (2 ^ Z.of_nat n - 1).
Proof.
  intros s n Hs. induction n as [|n IH]; [cbn; lia|].
  replace (S n) with (n + 1)%nat at 1 by lia. rewrite repeat_app. cbn [repeat].
  rewrite number_snoc, IH. rewrite Nat2Z.inj_succ, Z.pow_succ_r by lia. ring.
Qed.

Lemma sign_extend_ok : forall b w, wf b -> 1 <= bw b -> bw b <= w ->
  bs_sign_extend b w = Ok (bits w (twos (bw b) (bv b))).
Proof.
  intros b w Hb H1 Hw. pose proof Hb as (_ & Hv & Hm). unfold bs_sign_extend.
  pose proof (pow2_succ_split (bw b) H1) as Hp. pose proof (pow2_pos (bw b - 1) ltac:(lia)).
  destruct (Z.ltb_spec w (bw b)); [lia|].
  unfold twos. rewrite (Z.mod_small (bv b)) by lia.
  destruct (Z.eqb_spec w (bw b)) as [->|Hne].
  - f_equal. destruct (Z.ltb_spec (bv b) (2 ^ (bw b - 1))).
    + now apply wf_eq_bits.
    + unfold bits. replace ((bv b - 2 ^ bw b) mod 2 ^ bw b) with (bv b).
      * destruct b; simpl in *; subst; reflexivity.
      * apply (Z.mod_unique _ _ (-1)); lia.
  - unfold py_shr. destruct (Z.ltb_spec (bw b - 1) 0); [lia|]. cbn [bind].
    rewrite land1_testbit, testbit_top by lia.
    set (s := if 2 ^ (bw b - 1) <=? bv b then 1 else 0).
    assert (Hs : 0 <= s <= 1) by (unfold s; destruct (2 ^ (bw b - 1) <=? bv b); lia).
    set (d := Z.to_nat (w - bw b)).
    rewrite init_bits_list.
    + cbn [bind]. rewrite repeat_length.
      set (h := mkbs _ _ _).
      assert (Hh : wf h).
      { unfold wf, h; cbn [bw bv bm]. split; [lia|]. split; [|reflexivity].
        rewrite be_repeat by auto. pose proof (pow2_pos (Z.of_nat d) ltac:(lia)). nia. }
      rewrite mod_bits by auto. f_equal. unfold cat, h; cbn [bw bv]. unfold bits.
      replace (Z.of_nat d + bw b) with w by lia. f_equal. rewrite be_repeat by auto.
      assert (E : 2 ^ Z.of_nat d * 2 ^ bw b = 2 ^ w) by (rewrite <- pow2_add by lia; f_equal; lia).
      pose proof (pow2_pos (Z.of_nat d) ltac:(lia)).
      unfold s. destruct (Z.leb_spec (2 ^ (bw b - 1)) (bv b)); destruct (Z.ltb_spec (bv b) (2 ^ (bw b - 1))); try lia.
      * apply (Z.mod_unique _ _ (-1)); nia.
      * rewrite Z.mod_small; nia.
    + unfold d. destruct (Z.to_nat (w - bw b)) eqn:E; [lia|]. cbn. congruence.
    + apply Forall_forall. intros x Hx. apply repeat_spec in Hx. subst x. exact Hs.
Qed.

Lemma sign_extend_err : forall b w, w < bw b -> bs_sign_extend b w = Err ValueError.
Proof. intros b w H. unfold bs_sign_extend. destruct (Z.ltb_spec w (bw b)); [reflexivity|lia]. Qed.
Lemma sign_extend_empty : forall b w, bw b = 0 -> 0 < w -> bs_sign_extend b w = Err ValueError.
Proof.
  intros b w H Hw. unfold bs_sign_extend. rewrite H. destruct (Z.ltb_spec w 0); [lia|].
  destruct (Z.eqb_spec w 0); [lia|]. reflexivity.
Qed.

Lemma zero_extend_ok : forall b w, wf b -> bw b <= w -> bs_zero_extend b w = Ok (bits w (bv b)).
Proof.
  intros b w Hb Hw. pose proof Hb as (H0 & _). unfold bs_zero_extend. destruct (Z.ltb_spec w (bw b)); [lia|].
  destruct (Z.eqb_spec w (bw b)) as [->|Hne].
  - f_equal. now apply wf_eq_bits.
  - unfold bs_init. cbn [bs_raw bind]. apply finish_ok. lia.
Qed.
Lemma zero_extend_err : forall b w, w < bw b -> bs_zero_extend b w = Err ValueError.
Proof. intros b w H. unfold bs_zero_extend. destruct (Z.ltb_spec w (bw b)); [reflexivity|lia]. Qed.

Lemma twos_range : forall w v, 1 <= w -> - 2 ^ (w - 1) <= twos w v < 2 ^ (w - 1) /\ (twos w v) mod 2 ^ w = v mod 2 ^ w.
Proof.
  intros w v Hw. unfold twos. pose proof (pow2_succ_split w Hw). pose proof (pow2_pos (w - 1) ltac:(lia)).
  pose proof (Z.mod_pos_bound v (2 ^ w) ltac:(lia)).
  destruct (Z.ltb_spec (v mod 2 ^ w) (2 ^ (w - 1))).
  - split; [lia|]. apply Z.mod_small. lia.
  - split; [lia|]. symmetry. apply (Z.mod_unique _ _ (-1)); lia.
Qed.

Lemma twos_unique : forall w v z, 1 <= w -> - 2 ^ (w - 1) <= z < 2 ^ (w - 1) ->
  z mod 2 ^ w = v mod 2 ^ w -> z = twos w v.
Proof.
  intros w v z Hw Hz E. unfold twos. rewrite <- E. pose proof (pow2_succ_split w Hw).
  destruct (Z.lt_ge_cases z 0).
  - assert (z mod 2 ^ w = z + 2 ^ w) as -> by (symmetry; apply (Z.mod_unique _ _ (-1)); lia).
    destruct (Z.ltb_spec (z + 2 ^ w) (2 ^ (w - 1))); lia.
  - rewrite (Z.mod_small z) by lia. destruct (Z.ltb_spec z (2 ^ (w - 1))); lia.
Qed.

Lemma twos_twos : forall w w' v, 1 <= w <= w' -> twos w' (twos w v) = twos w v.
Proof.
  intros w w' v Hw. symmetry. apply twos_unique; [lia| |reflexivity].
  destruct (twos_range w v ltac:(lia)) as [H _].
  pose proof (pow2_le (w - 1) (w' - 1) ltac:(lia)). lia.
Qed.

Lemma twos_mod : forall w v, 1 <= w -> twos w (v mod 2 ^ w) = twos w v.
Proof. intros w v H. unfold twos. rewrite Z.mod_mod; [reflexivity|]. pose proof (pow2_pos w); lia. Qed.

(** the integer read by [signed] *)
Lemma signed_value : forall b, wf b -> 2 <= bw b ->
  exists b', bs_signed b = Ok (b', twos (bw b) (bv b)) /\
    b' = (if bv b <? 2 ^ (bw b - 1) then b else bits (bw b) (2 ^ bw b - 1 - bv b)).
Proof.
  intros b Hb H2. pose proof Hb as (_ & Hv & _). unfold twos. rewrite Z.mod_small by lia.
  destruct (Z.ltb_spec (bv b) (2 ^ (bw b - 1))).
  - rewrite signed_pos by auto. eauto.
  - rewrite signed_neg by (auto; lia). eauto.
Qed.

(** ** Queries *)
Lemma ones_below_shift : forall n v, ones_below (S n) v = (if Z.testbit v 0 then 1 else 0) + ones_below n (Z.shiftr v 1).
Proof.
  induction n as [|n IH]; intros v; [cbn [ones_below]; change (Z.of_nat 0) with 0; lia|].
  cbn [ones_below] in *. rewrite IH. rewrite Z.shiftr_spec by lia.
  replace (Z.of_nat n + 1) with (Z.of_nat (S n)) by lia. lia.
Qed.

Lemma ones_below_zero : forall n, ones_below n 0 = 0.
Proof. induction n; cbn [ones_below]; auto. rewrite Z.testbit_0_l. lia. Qed.

Lemma count_loop_ok : forall fuel v count n, 0 <= v < 2 ^ Z.of_nat fuel -> (fuel <= n)%nat ->
  count_loop fuel v count = Ok (count + ones_below n v).
Proof.
  induction fuel as [|f IH]; intros v count n Hv Hn.
  - change (2 ^ Z.of_nat 0) with 1 in Hv. assert (v = 0) as -> by lia. cbn [count_loop Z.eqb].
    rewrite ones_below_zero, Z.add_0_r. reflexivity.
  - cbn [count_loop]. destruct (Z.eqb_spec v 0) as [->|Hne].
    + rewrite ones_below_zero, Z.add_0_r. reflexivity.
    + destruct n as [|n]; [lia|]. rewrite (IH _ _ n).
      * rewrite ones_below_shift. rewrite land1_bit0. f_equal. destruct (Z.testbit v 0); lia.
      * rewrite Nat2Z.inj_succ, Z.pow_succ_r in Hv by lia.
        rewrite Z.shiftr_div_pow2 by lia. change (2 ^ 1) with 2.
        split; [apply Z.div_pos; lia|apply Z.div_lt_upper_bound; lia].
      * lia.
Qed.

Lemma ones_below_high : forall k n v, (forall i, (n <= i)%nat -> Z.testbit v (Z.of_nat i) = false) ->
  ones_below (k + n) v = ones_below n v.
Proof.
  induction k as [|k IH]; intros n v H; [reflexivity|]. cbn [Nat.add ones_below].
  rewrite H by lia. rewrite IH by auto. reflexivity.
Qed.

Lemma count_loop_exact : forall v w, 0 <= w -> 0 <= v < 2 ^ w ->
  count_loop (S (Z.to_nat (Z.log2 v))) v 0 = Ok (ones_below (Z.to_nat w) v).
Proof.
  intros v w Hw Hv. set (f := S (Z.to_nat (Z.log2 v))).
  rewrite (count_loop_ok f v 0 (f + Z.to_nat w)).
  - f_equal. rewrite Z.add_0_l. apply ones_below_high.
    intros i Hi. apply (testbit_small v w); lia.
  - split; [lia|]. unfold f. destruct (Z.eq_dec v 0) as [->|H].
    + cbn. lia.
    + pose proof (Z.log2_spec v ltac:(lia)) as Hl. pose proof (Z.log2_nonneg v).
      rewrite Nat2Z.inj_succ, Z2Nat.id by lia. apply Hl.
  - lia.
Qed.

Lemma bit_count_ok : forall b, wf b -> bs_bit_count b = Ok (ones_below (Z.to_nat (bw b)) (bv b)).
Proof. intros b (Hw & Hv & _). apply count_loop_exact; auto. Qed.

Lemma lowest_loop_ok : forall l v n w, (forall k, (k < List.length l)%nat -> nth k l 0 = n + Z.of_nat k) ->
  let r := lowest_loop l (Z.shiftr v n) w in
  0 <= n ->
  (r = w /\ (forall k, 0 <= k < Z.of_nat (List.length l) -> Z.testbit v (n + k) = false)) \/
  (n <= r < n + Z.of_nat (List.length l) /\ Z.testbit v r = true /\
   forall k, n <= k < r -> Z.testbit v k = false).
Proof.
  induction l as [|i l IH]; intros v n w H r Hn.
  - left. split; [reflexivity|]. cbn [List.length Z.of_nat]. lia.
  - unfold r. cbn [lowest_loop]. rewrite land1_testbit by lia.
    assert (Hi : i = n) by (specialize (H 0%nat ltac:(cbn; lia)); cbn in H; lia). subst i.
    destruct (Z.testbit v n) eqn:E.
    + change (negb (1 =? 0)) with true. cbv iota. right. cbn [List.length]. split; [lia|]. split; auto.
      intros; lia.
    + change (negb (0 =? 0)) with false. cbv iota. rewrite Z.shiftr_shiftr by lia.
      destruct (IH v (n + 1) w) as [[E1 E2]|(E1 & E2 & E3)].
      * intros k Hk. specialize (H (S k) ltac:(cbn; lia)). cbn [nth] in H. lia.
      * lia.
      * left. split; [exact E1|]. intros k Hk. cbn [List.length] in Hk.
        destruct (Z.eq_dec k 0) as [->|]; [rewrite Z.add_0_r; auto|].
        replace (n + k) with (n + 1 + (k - 1)) by lia. apply E2. lia.
      * right. cbn [List.length]. split; [lia|]. split; auto. intros k Hk.
        destruct (Z.eq_dec k n) as [->|]; auto. apply E3. lia.
Qed.

Lemma lowest_ok : forall b, wf b ->
  (bv b = 0 -> bs_lowest_set_bit b = bw b) /\
  (bv b <> 0 -> 0 <= bs_lowest_set_bit b < bw b /\ bit b (bs_lowest_set_bit b) = true /\
     forall k, 0 <= k < bs_lowest_set_bit b -> bit b k = false).
Proof.
  intros b (Hw & Hv & _). unfold bs_lowest_set_bit.
  pose proof (lowest_loop_ok (py_range (bw b)) (bv b) 0 (bw b)) as H. cbv zeta in H.
  rewrite Z.shiftr_0_r in H. pose proof (py_range_length (bw b) Hw) as HL. rewrite HL in H.
  specialize (H ltac:(intros k Hk; rewrite py_range_nth by lia; lia) ltac:(lia)).
  destruct H as [[E1 E2]|(E1 & E2 & E3)].
  - split; [auto|]. intros Hne. exfalso. apply Hne.
    apply (bits_ext _ _ (bw b)); auto; [pose proof (pow2_pos (bw b) Hw); lia|].
    intros i Hi. rewrite Z.testbit_0_l. apply (E2 i). lia.
  - split.
    + intros H0. rewrite H0, Z.testbit_0_l in E2. discriminate.
    + intros _. unfold bit. split; [lia|]. split; auto.
Qed.

Lemma highest_loop_ok : forall n v,
  let r := highest_loop (rev (map Z.of_nat (seq 0 n))) v in
  (r = -1 /\ forall k, 0 <= k < Z.of_nat n -> Z.testbit v k = false) \/
  (0 <= r < Z.of_nat n /\ Z.testbit v r = true /\ forall k, r < k < Z.of_nat n -> Z.testbit v k = false).
Proof.
  induction n as [|n IH]; intros v r.
  - left. split; [reflexivity|]. lia.
  - unfold r. rewrite seq_S, map_app, rev_app_distr. cbn [map rev app highest_loop Nat.add].
    rewrite land1_testbit by lia. destruct (Z.testbit v (Z.of_nat n)) eqn:E.
    + change (negb (1 =? 0)) with true. cbv iota. right. split; [lia|]. split; auto. intros; lia.
    + change (negb (0 =? 0)) with false. cbv iota. destruct (IH v) as [[E1 E2]|(E1 & E2 & E3)].
      * left. split; auto. intros k Hk. destruct (Z.eq_dec k (Z.of_nat n)) as [->|]; auto. apply E2; lia.
      * right. split; [lia|]. split; auto. intros k Hk.
        destruct (Z.eq_dec k (Z.of_nat n)) as [->|]; auto. apply E3; lia.
Qed.

Lemma highest_ok : forall b, wf b ->
  (bv b = 0 -> bs_highest_set_bit b = -1) /\
  (bv b <> 0 -> 0 <= bs_highest_set_bit b < bw b /\ bit b (bs_highest_set_bit b) = true /\
     forall k, bs_highest_set_bit b < k -> bit b k = false).
Proof.
  intros b Hb. pose proof Hb as (Hw & Hv & _). unfold bs_highest_set_bit, py_range.
  pose proof (highest_loop_ok (Z.to_nat (bw b)) (bv b)) as H. cbv zeta in H.
  rewrite Z2Nat.id in H by lia. destruct H as [[E1 E2]|(E1 & E2 & E3)].
  - split; [auto|]. intros Hne. exfalso. apply Hne.
    apply (bits_ext _ _ (bw b)); auto; [pose proof (pow2_pos (bw b) Hw); lia|].
    intros i Hi. rewrite Z.testbit_0_l. apply (E2 i). lia.
  - split.
    + intros H0. rewrite H0, Z.testbit_0_l in E2. discriminate.
    + intros _. split; [lia|]. split; auto. intros k Hk.
      destruct (Z.lt_ge_cases k (bw b)); [apply E3; lia|]. apply bit_above; auto.
Qed.

(** ** Comparison *)
Lemma eqb_eq : forall a b, wf a -> wf b -> (bs_eqb a b = true <-> a = b).
Proof.
  intros a b Ha Hb. unfold bs_eqb. rewrite andb_true_iff, !Z.eqb_eq. split.
  - intros [E1 E2]. now apply wf_ext.
  - intros ->. auto.
Qed.

Lemma ltb_spec : forall a b, bs_ltb a b = true <-> bv a < bv b \/ (bv a = bv b /\ bw a < bw b).
Proof. intros a b. unfold bs_ltb. destruct (Z.eqb_spec (bv a) (bv b)); lia. Qed.

(** ** C01: every operation keeps objects well formed *)
Lemma eq_wf : forall a v a' r, wf a -> bs_eq a v = Ok (a', r) -> wf a'.
Proof.
  intros a v a' r Ha H. destruct v; cbn [bs_eq] in H; try (inversion H; subst; assumption).
  - destruct (z <? 0).
    + destruct (signed_total a Ha) as (b' & s & E & W & _). rewrite E in H. cbn [bind] in H.
      inversion H; subst; auto.
    + inversion H; subst; auto.
  - destruct (bs_init (VStr s) None); cbn [bind] in H; inversion H; subst; auto.
Qed.
Lemma lt_wf : forall a v a' r, wf a -> bs_lt a v = Ok (a', r) -> wf a'.
Proof.
  intros a v a' r Ha H. destruct v; cbn [bs_lt] in H; try (inversion H; subst; assumption).
  - destruct (z <? 0).
    + destruct (signed_total a Ha) as (b' & s & E & W & _). rewrite E in H. cbn [bind] in H.
      inversion H; subst; auto.
    + inversion H; subst; auto.
  - destruct (bs_init (VStr s) None); cbn [bind] in H; inversion H; subst; auto.
Qed.
Lemma le_wf : forall a v a' r, wf a -> bs_le a v = Ok (a', r) -> wf a'.
Proof.
  intros a v a' r Ha H.
  assert (G : (let* ' (a'0, r0) := bs_eq a v in if r0 then Ok (a'0, true) else bs_lt a'0 v) = Ok (a', r) -> wf a').
  { intros G. destruct (bs_eq a v) as [[a1 r1]|e] eqn:E; cbn [bind] in G; [|discriminate].
    apply eq_wf in E; auto. destruct r1; [inversion G; subst; auto|]. eapply lt_wf; eauto. }
  destruct v; cbn [bs_le] in H; auto; discriminate.
Qed.

Lemma cat_mod_wf : forall a v r, wf a -> wf_val v -> bs_mod a v = Ok r -> wf r.
Proof.
  intros a v r Ha Hv H.
  assert (C : forall b, wf b -> bs_cat a b = Ok r -> wf r).
  { intros b Hb E. rewrite cat_ok in E by auto. inversion E. now apply cat_wf. }
  destruct v; cbn [bs_mod] in H.
  - rewrite init_copy in H by auto. inversion H; subst; auto.
  - now apply (C b).
  - destruct ((z =? 0) || (z =? 1))%bool; [|discriminate].
    destruct (bs_init (VInt z) (Some 1)) eqn:E; cbn [bind] in H; [|discriminate]. apply init_wf in E. eauto.
  - destruct (bs_init (VStr s) None) eqn:E; cbn [bind] in H; [|discriminate]. apply init_wf in E. eauto.
  - destruct (bs_init (VSeq l) None) eqn:E; cbn [bind] in H; [|discriminate]. apply init_wf in E. eauto.
  - destruct py.
    + rewrite init_copy in H by auto. inversion H; subst; auto.
    + destruct (bs_init (VBytearray Py3 l) None) eqn:E; cbn [bind] in H; [|discriminate]. apply init_wf in E. eauto.
  - rewrite init_copy in H by auto. inversion H; subst; auto.
Qed.

Lemma set_value_wf : forall b z, wf b -> wf (bs_set_value b z).
Proof.
  intros b z (Hw & Hv & Hm). unfold bs_set_value. rewrite Hm, land_mask by lia.
  apply (wf_bits (bw b) z Hw).
Qed.

Lemma reversed_wf : forall b r, bs_reversed b = Ok r -> wf r.
Proof. intros b r H. unfold bs_reversed in H. eapply init_wf; eauto. Qed.

Lemma and_wf : forall a v r, bs_and a v = Ok r -> wf r.
Proof. intros a v r H. unfold bs_and in H. destruct (bit_operand v); [eapply init_wf; eauto|discriminate]. Qed.
Lemma or_wf : forall a v r, bs_or a v = Ok r -> wf r.
Proof. intros a v r H. unfold bs_or in H. destruct (bit_operand v); [eapply init_wf; eauto|discriminate]. Qed.
Lemma xor_wf : forall a v r, bs_xor a v = Ok r -> wf r.
Proof. intros a v r H. unfold bs_xor in H. destruct (bit_operand v); [eapply init_wf; eauto|discriminate]. Qed.
Lemma lshift_wf : forall a v r, bs_lshift a v = Ok r -> wf r.
Proof.
  intros a v r H. unfold bs_lshift in H. destruct v; try discriminate.
  destruct (py_shl (bv a) z); [eapply init_wf; eauto|discriminate].
Qed.
Lemma rshift_wf : forall a v r, bs_rshift a v = Ok r -> wf r.
Proof.
  intros a v r H. unfold bs_rshift in H. destruct v; try discriminate.
  destruct (py_shr (bv a) z); [eapply init_wf; eauto|discriminate].
Qed.

Lemma upd_wf : forall b (r : res bs) b' e, wf b -> (forall x, r = Ok x -> wf x) -> upd b r = (b', e) -> wf b'.
Proof. intros b [x|e0] b' e Hb H E; inversion E; subst; auto. Qed.
Lemma keep_wf : forall A b (r : res (bs * A)) b' e, wf b -> (forall x y, r = Ok (x, y) -> wf x) ->
  keep b r = (b', e) -> wf b'.
Proof. intros A b [[x y]|e0] b' e Hb H E; inversion E; subst; auto. eapply H; reflexivity. Qed.

Lemma do_op_wf : forall o b b' e, wf b -> wf_val (bop_val o) -> do_op o b = (b', e) ->
  (forall w, o = OSetWidth w -> e = None) -> wf b'.
Proof.
  intros o b b' e Hb Hv H Hnw.
  destruct o; cbn [do_op bop_val] in *;
    try (eapply upd_wf; [exact Hb| |exact H]; intros x Hx);
    try (eapply keep_wf; [exact Hb| |exact H]; intros x y Hx).
  - eapply arith_wf; eauto.
  - eapply arith_wf; eauto.
  - eapply arith_wf; eauto.
  - eapply arith_wf; eauto.
  - eapply cat_mod_wf; eauto.
  - eapply lshift_wf; eauto.
  - eapply rshift_wf; eauto.
  - eapply and_wf; eauto.
  - eapply or_wf; eauto.
  - eapply xor_wf; eauto.
  - inversion H; subst. now apply set_value_wf.
  - specialize (Hnw w eq_refl). unfold bs_set_width, py_shl in H.
    destruct (Z.ltb_spec w 0); inversion H; subst; [discriminate|].
    rewrite shl1_ones, land_mask by lia. apply (wf_bits w (bv b)). lia.
  - eapply setitem_wf; eauto.
  - rewrite invert_ok in Hx by auto. inversion Hx. apply wf_bits. apply Hb.
  - unfold bs_reverse in Hx. destruct (bs_reversed b) eqn:E; cbn [bind] in Hx; [|discriminate].
    inversion Hx; subst. eapply reversed_wf; eauto.
  - destruct (signed_total b Hb) as (b1 & z & E & W & _). rewrite E in Hx. inversion Hx; subst; auto.
  - eapply eq_wf; eauto.
  - destruct v; cbn [bs_ne] in Hx; try (inversion Hx; subst; assumption);
      (match type of Hx with (let* ' _ := ?q in _) = _ => destruct q as [[a1 r1]|] eqn:E end;
       cbn [bind] in Hx; [|discriminate]; inversion Hx; subst; eapply eq_wf; [exact Hb|exact E]).
  - eapply lt_wf; eauto.
  - eapply le_wf; eauto.
  - destruct v; cbn [bs_gt] in Hx; try (inversion Hx; subst; assumption);
      (match type of Hx with (let* ' _ := ?q in _) = _ => destruct q as [[a1 r1]|] eqn:E end;
       cbn [bind] in Hx; [|discriminate]; inversion Hx; subst; eapply le_wf; [exact Hb|exact E]).
  - destruct v; cbn [bs_ge] in Hx; try (inversion Hx; subst; assumption);
      (match type of Hx with (let* ' _ := ?q in _) = _ => destruct q as [[a1 r1]|] eqn:E end;
       cbn [bind] in Hx; [|discriminate]; inversion Hx; subst; eapply lt_wf; [exact Hb|exact E]).
Qed.

Lemma do_ops_wf : forall l b b' e, wf b -> Forall (fun o => wf_val (bop_val o)) l ->
  do_ops l b = (b', e) -> (e = None \/ (forall w, ~ In (OSetWidth w) l)) -> wf b'.
Proof.
  induction l as [|o l IH]; intros b b' e Hb HF H Hne; cbn [do_ops] in H.
  - inversion H; subst; auto.
  - inversion HF as [|? ? Ho Hl]; subst.
    destruct (do_op o b) as [b1 [e1|]] eqn:E.
    + inversion H; subst. eapply do_op_wf; eauto.
      intros w ->. destruct Hne as [Hne|Hne]; [discriminate|]. exfalso. eapply Hne. left. reflexivity.
    + apply (IH b1 b' e); auto.
      * eapply do_op_wf; eauto.
      * destruct Hne as [Hne|Hne]; auto. right. intros w Hw. eapply Hne. right. exact Hw.
Qed.

(** A failing statement leaves the object as it was (negative width aside). *)
Lemma do_op_fail : forall o b b' e, do_op o b = (b', Some e) -> (forall w, o <> OSetWidth w) -> b' = b.
Proof.
  intros o b b' e H Hne.
  assert (U : forall r, upd b r = (b', Some e) -> b' = b) by (intros [x|x] E; inversion E; auto).
  assert (K : forall A (r : res (bs * A)), keep b r = (b', Some e) -> b' = b)
    by (intros A [[x y]|x] E; inversion E; auto).
  destruct o; cbn [do_op] in H; eauto; try discriminate.
  exfalso. eapply Hne; reflexivity.
Qed.
