(** * Properties C01-C15: bitstrings *)
From Verif Require Import BitstringModel SpecBits BitFacts BitOps BitText BitMisc.
From Coq Require Import Lia ZifyBool.
(*@imports
From Verif Require Import BitstringModel SpecBits BitThms.
@*)

(*@doc C01.  From construction on, after any sequence of statements that all
succeed, the value fits the width and the mask is that of the width. @*)
Lemma C01_range_proof : forall v w b0 ops b,
  bs_init v w = Ok b0 -> Forall (fun o => wf_val (bop_val o)) ops ->
  do_ops ops b0 = (b, None) ->
  0 <= bw b /\ 0 <= bv b < 2 ^ bw b /\ bm b = 2 ^ bw b - 1.
Proof.
  intros v w b0 ops b H HF E. apply init_wf in H. exact (do_ops_wf ops b0 b None H HF E (or_introl eq_refl)).
Qed.
(*@ex
Example C01_range_ex :
  exists b0 b, bs_init (VInt 200) (Some 8) = Ok b0 /\
  do_ops [OAdd (VInt 100); OCat (VStr "101"); OSetItem (KInt (-1)) (VInt 1); OSigned; OShl (VInt 3)] b0
    = (b, None) /\ bw b = 11 /\ bv b = 1232.
Proof. do 2 eexists. split; [reflexivity|]. split; [vm_compute; reflexivity|split; reflexivity]. Qed.
@*)

(*@doc C01, with failures: an object is also well formed after a statement has
raised, unless that statement assigned the width. @*)
Lemma C01_range_after_error_proof : forall v w b0 ops b e,
  bs_init v w = Ok b0 -> Forall (fun o => wf_val (bop_val o)) ops ->
  (forall n, ~ In (OSetWidth n) ops) -> do_ops ops b0 = (b, e) -> wf b.
Proof.
  intros v w b0 ops b e H HF Hn E. apply init_wf in H. exact (do_ops_wf ops b0 b e H HF E (or_intror Hn)).
Qed.
(*@ex
Example C01_range_after_error_ex :
  exists b0 b, bs_init (VStr "1010") None = Ok b0 /\
  do_ops [OFloorDiv (VInt 3); OSetItem (KInt 9) (VInt 1); OInvert] b0 = (b, Some IndexError) /\ bv b = 3.
Proof. do 2 eexists. split; [reflexivity|]. split; [vm_compute; reflexivity|reflexivity]. Qed.
@*)

(*@doc C01/C05: a statement that raises leaves the object as it was (width
assignment aside). @*)
Lemma C01_failure_unchanged_proof : forall o b b' e,
  do_op o b = (b', Some e) -> (forall w, o <> OSetWidth w) -> b' = b.
Proof. exact do_op_fail. Qed.
(*@ex
Example C01_failure_unchanged_ex :
  do_op (OFloorDiv (VInt 0)) (bits 8 77) = (bits 8 77, Some ZeroDivisionError).
Proof. vm_compute. reflexivity. Qed.
@*)

(*@doc C01 fails for a width assignment that raises: the object keeps the
negative width (bitstring.py:104-106). @*)
Lemma C01_width_setter_refuted_proof : exists b w b' e,
  wf b /\ do_op (OSetWidth w) b = (b', Some e) /\ ~ wf b'.
Proof.
  exists (bits 8 5), (-1), (mkbs (-1) 5 255), ValueError. split; [apply wf_bits; lia|].
  split; [vm_compute; reflexivity|]. intros (H & _). cbn in H. lia.
Qed.

(*@doc Assigning [value] or a non-negative [width] truncates to the width. @*)
Lemma C01_setters_proof : forall b z w, wf b -> 0 <= w ->
  bs_set_value b z = bits (bw b) z /\ bs_set_width b w = (bits w (bv b), Ok tt).
Proof.
  intros b z w (Hw & Hv & Hm) H. split.
  - unfold bs_set_value. rewrite Hm, land_mask by lia. reflexivity.
  - unfold bs_set_width, py_shl. destruct (Z.ltb_spec w 0); [lia|].
    rewrite shl1_ones, land_mask by lia. reflexivity.
Qed.
(*@ex
Example C01_setters_ex : bs_set_width (bits 8 200) 4 = (bits 4 8, Ok tt).
Proof. reflexivity. Qed.
@*)

(*@doc C02.  Integer, binary-text and bitstring right operands. @*)
Lemma C02_arith_proof : forall a o z, wf a -> means o z ->
  bs_add a o = Ok (bits (bw a) (bv a + z)) /\
  bs_sub a o = Ok (bits (bw a) (bv a - z)) /\
  bs_mul a o = Ok (bits (bw a) (bv a * z)) /\
  (z <> 0 -> bs_floordiv a o = Ok (bits (bw a) (bv a / z))) /\
  (z = 0 -> bs_floordiv a o = Err ZeroDivisionError).
Proof.
  intros a o z Ha Hm.
  assert (E : arith_operand o = Ok (Some z)).
  { inversion Hm; subst; try reflexivity. now apply arith_operand_text. }
  unfold bs_add, bs_sub, bs_mul, bs_floordiv. repeat split.
  - eapply arith_some; eauto.
  - eapply arith_some; eauto.
  - eapply arith_some; eauto.
  - intros Hz. eapply arith_some; eauto. cbv beta. destruct (Z.eqb_spec z 0); [lia|reflexivity].
  - intros ->. unfold bs_arith. rewrite init_copy by auto. cbn [bind]. rewrite E. reflexivity.
Qed.
(*@ex
Example C02_arith_ex : wf (bits 8 200) /\ means (VStr "1100100") 100 /\
  bs_add (bits 8 200) (VStr "1100100") = Ok (bits 8 44) /\
  bs_sub (bits 8 44) (VBits (bits 16 200)) = Ok (bits 8 100) /\
  bs_floordiv (bits 8 200) (VInt (-3)) = Ok (bits 8 189).
Proof.
  split; [vm_compute; intuition congruence|]. split.
  - replace 100 with (be_number 2 (text_bits "1100100")) by reflexivity. constructor.
    split; [discriminate|]. cbn [chars].
    do 7 (apply Forall_cons; [first [left; reflexivity|right; reflexivity]|]). apply Forall_nil.
  - repeat split.
Qed.
@*)

(*@doc C02, any other text: the operand is first converted by the constructor,
whose failure is the failure of the operation. @*)
Lemma C02_text_proof : forall a s, wf a ->
  match bs_init (VStr s) None with
  | Ok b => bs_add a (VStr s) = bs_add a (VBits b) /\ bs_sub a (VStr s) = bs_sub a (VBits b) /\
            bs_mul a (VStr s) = bs_mul a (VBits b) /\ bs_floordiv a (VStr s) = bs_floordiv a (VBits b)
  | Err e => bs_add a (VStr s) = Err e /\ bs_sub a (VStr s) = Err e /\
             bs_mul a (VStr s) = Err e /\ bs_floordiv a (VStr s) = Err e
  end.
Proof.
  intros a s Ha. unfold bs_add, bs_sub, bs_mul, bs_floordiv, bs_arith. rewrite init_copy by auto.
  cbn [bind arith_operand]. destruct (bs_init (VStr s) None); cbn [bind]; auto.
Qed.
(*@ex
Example C02_text_ex : bs_add (bits 8 1) (VStr "12") = Err ValueError.
Proof. reflexivity. Qed.
@*)

(*@doc C02: an operand of an unsupported type is ignored, a copy of the left
operand is returned (bitstring.py:328-330: the NotImplemented is dropped). @*)
Lemma C02_unsupported_proof : forall a o, wf a ->
  o = VNone \/ o = VOther \/ (exists l, o = VSeq l) \/ (exists py l, o = VBytearray py l) ->
  bs_add a o = Ok a /\ bs_sub a o = Ok a /\ bs_mul a o = Ok a /\ bs_floordiv a o = Ok a.
Proof.
  intros a o Ha H. unfold bs_add, bs_sub, bs_mul, bs_floordiv, bs_arith. rewrite init_copy by auto.
  destruct H as [->|[->|[[l ->]|[py [l ->]]]]]; repeat split.
Qed.
(*@ex
Example C02_unsupported_ex : bs_add (bits 8 7) VOther = Ok (bits 8 7).
Proof. reflexivity. Qed.
@*)

(*@doc C02, reflected: with an int on the left the result has the width the
constructor gives that int. @*)
Lemma C02_reflected_proof : forall b n, wf b ->
  let w := if 2 ^ 32 <? n then 64 else 32 in let m := n mod 2 ^ w in
  bs_radd b (VInt n) = Ok (bits w (m + bv b)) /\
  bs_rsub b (VInt n) = Ok (bits w (m - bv b)) /\
  bs_rmul b (VInt n) = Ok (bits w (m * bv b)) /\
  bs_rfloordiv b (VInt n) = (if bv b =? 0 then Err ZeroDivisionError else Ok (bits w (m / bv b))) /\
  bs_rand b (VInt n) = Ok (bits w (Z.land m (bv b))) /\
  bs_ror b (VInt n) = Ok (bits (Z.max w (bw b)) (Z.lor m (bv b))) /\
  bs_rxor b (VInt n) = Ok (bits (Z.max w (bw b)) (Z.lxor m (bv b))) /\
  bs_rmod b (VInt n) = Ok (bits (w + bw b) (m * 2 ^ bw b + bv b)).
Proof.
  intros b n Hb w m.
  assert (Hw : 0 <= w) by (unfold w; destruct (2 ^ 32 <? n); lia).
  assert (E : bs_init (VInt n) None = Ok (bits w n)).
  { unfold bs_init. cbn [bs_raw bind]. change (Z.shiftl 1 32) with (2 ^ 32). now apply finish_ok. }
  pose proof (wf_bits w n Hw) as Wn.
  unfold bs_radd, bs_rsub, bs_rmul, bs_rfloordiv, bs_rand, bs_ror, bs_rxor, bs_rmod, bs_reflected.
  rewrite E. cbn [bind]. fold (bits w n).
  repeat split.
  - unfold bs_add. erewrite arith_some; eauto; reflexivity.
  - unfold bs_sub. erewrite arith_some; eauto; reflexivity.
  - unfold bs_mul. erewrite arith_some; eauto; reflexivity.
  - unfold bs_floordiv, bs_arith. rewrite init_copy by auto. cbn [bind arith_operand].
    destruct (bv b =? 0); [reflexivity|]. cbn [bind bits bw bv bm]. rewrite land_mask by lia. reflexivity.
  - erewrite and_ok; eauto; reflexivity.
  - erewrite or_ok; eauto; reflexivity.
  - erewrite xor_ok; eauto; reflexivity.
  - rewrite mod_bits by auto. f_equal. pose proof (cat_wf _ _ Wn Hb) as Wc. rewrite (wf_eq_bits _ Wc). reflexivity.
Qed.
(*@ex
Example C02_reflected_ex : bs_rsub (bits 8 5) (VInt 3) = Ok (bits 32 4294967294).
Proof. reflexivity. Qed.
@*)

(*@doc C03. @*)
Lemma C03_concat_proof : forall a b, wf a -> wf b ->
  exists r, bs_mod a (VBits b) = Ok r /\ wf r /\ bw r = bw a + bw b /\
    bv r = bv a * 2 ^ bw b + bv b /\
    forall i, 0 <= i -> bit r i = if i <? bw b then bit b i else bit a (i - bw b).
Proof.
  intros a b Ha Hb. exists (cat a b). rewrite mod_bits by auto.
  split; [reflexivity|]. split; [now apply cat_wf|]. split; [reflexivity|]. split; [reflexivity|].
  intros. now apply bit_cat.
Qed.
(*@ex
Example C03_concat_ex : bs_mod (bits 3 5) (VBits (bits 4 2)) = Ok (bits 7 82).
Proof. reflexivity. Qed.
@*)

Lemma C03_assoc_unit_proof : forall a b c, wf a -> wf b -> wf c ->
  (forall ab bc, bs_mod a (VBits b) = Ok ab -> bs_mod b (VBits c) = Ok bc ->
     bs_mod ab (VBits c) = bs_mod a (VBits bc)) /\
  (exists e, bs_init VNone None = Ok e /\ bs_mod a (VBits e) = Ok a /\ bs_mod e (VBits a) = Ok a).
Proof.
  intros a b c Ha Hb Hc. split.
  - intros ab bc E1 E2. rewrite mod_bits in E1, E2 by auto. inversion E1; inversion E2; subst.
    rewrite !mod_bits by (auto using cat_wf). f_equal. unfold cat; cbn [bw bv bm].
    destruct Ha as (? & _), Hb as (? & _), Hc as (? & _). f_equal.
    + lia.
    + rewrite pow2_add by lia. ring.
    + do 2 f_equal. lia.
  - exists (bits 0 0). split; [reflexivity|]. assert (W : wf (bits 0 0)) by (apply wf_bits; lia).
    rewrite !mod_bits by auto. unfold cat; cbn [bits bw bv bm]. destruct a as [w v m], Ha as (Hw & Hv & Hm).
    cbn [bw bv bm] in *. subst m. change (0 mod 2 ^ 0) with 0. change (2 ^ 0) with 1.
    split; do 2 f_equal; try lia; do 2 f_equal; lia.
Qed.
(*@ex
Example C03_assoc_unit_ex : exists ab bc,
  bs_mod (bits 2 3) (VBits (bits 3 1)) = Ok ab /\ bs_mod (bits 3 1) (VBits (bits 1 1)) = Ok bc /\
  bs_mod ab (VBits (bits 1 1)) = Ok (bits 6 51).
Proof. do 2 eexists. repeat split; reflexivity. Qed.
@*)

(*@doc C03, other right operands. @*)
Lemma C03_operands_proof : forall a, wf a ->
  (forall s b, bs_init (VStr s) None = Ok b -> bs_mod a (VStr s) = bs_mod a (VBits b)) /\
  (forall l b, bs_init (VSeq l) None = Ok b -> bs_mod a (VSeq l) = bs_mod a (VBits b)) /\
  (forall z, z = 0 \/ z = 1 -> bs_mod a (VInt z) = bs_mod a (VBits (bits 1 z))) /\
  (forall z, z <> 0 -> z <> 1 -> bs_mod a (VInt z) = Err ValueError) /\
  bs_mod a VNone = Ok a /\ bs_mod a VOther = Ok a.
Proof.
  intros a Ha. repeat split.
  - intros s b E. cbn [bs_mod]. rewrite E. reflexivity.
  - intros s b E. cbn [bs_mod]. rewrite E. reflexivity.
  - intros z [->| ->]; reflexivity.
  - intros z H0 H1. cbn [bs_mod]. destruct (Z.eqb_spec z 0); [lia|]. destruct (Z.eqb_spec z 1); [lia|]. reflexivity.
  - cbn [bs_mod]. now apply init_copy.
  - cbn [bs_mod]. now apply init_copy.
Qed.
(*@ex
Example C03_operands_ex : bs_mod (bits 3 5) (VSeq [1;0;1;1]) = Ok (bits 7 91) /\
  bs_mod (bits 3 5) (VInt 2) = Err ValueError.
Proof. split; reflexivity. Qed.
@*)

(*@doc C04.  Any slice: one result bit per selected position, in order. @*)
Lemma C04_slice_proof : forall b s, wf b ->
  match slice_bounds s (bw b) with
  | None => bs_getitem b (KSlice s) = Err ValueError
  | Some (start, stop, step) =>
    exists r, bs_getitem b (KSlice s) = Ok r /\ wf r /\
      bw r = Z.of_nat (List.length (range_list start stop step)) /\
      (forall k, (k < List.length (range_list start stop step))%nat ->
         0 <= nth k (range_list start stop step) 0 < bw b /\
         bit r (Z.of_nat k) = bit b (nth k (range_list start stop step) 0))
  end.
Proof.
  intros b s Hb. pose proof Hb as (Hw & _).
  destruct (slice_bounds s (bw b)) as [[[start stop] step]|] eqn:E.
  - destruct (getslice_ok b s start stop step Hb E) as (r & E1 & W & Wd & B).
    exists r. split; [exact E1|]. split; [exact W|].
    pose proof (range_count_nonneg start stop step) as Hc.
    assert (L : Z.of_nat (List.length (range_list start stop step)) = range_count start stop step).
    { unfold range_list. rewrite map_length, seq_length. lia. }
    split; [lia|]. intros k Hk.
    assert (N : nth k (range_list start stop step) 0 = start + Z.of_nat k * step).
    { unfold range_list in *. rewrite map_length, seq_length in Hk.
      rewrite nth_indep with (d' := (fun k => start + Z.of_nat k * step) 0%nat) by (rewrite map_length, seq_length; lia).
      rewrite (map_nth (fun k => start + Z.of_nat k * step)). rewrite seq_nth by lia. reflexivity. }
    rewrite N. split.
    + eapply range_pos_in; eauto. lia.
    + apply B. lia.
  - now apply getslice_err.
Qed.
(*@ex
Example C04_slice_ex :
  slice_bounds (mkslice None (Some (-5)) (Some (-2))) 8 = Some (7, 3, -2) /\
  range_list 7 3 (-2) = [7; 5] /\
  bs_getitem (bits 8 160) (KSlice (mkslice None (Some (-5)) (Some (-2)))) = Ok (bits 2 3).
Proof. repeat split; reflexivity. Qed.
@*)

Lemma C04_simple_slice_proof : forall x a b, wf x -> 0 <= a <= b -> b <= bw x ->
  bs_getitem x (KSlice (sl a b)) = Ok (bits (b - a) (bv x / 2 ^ a)).
Proof.
  intros x a b Hx Ha Hb. cbn [bs_getitem]. rewrite getslice_simple by auto.
  rewrite Z.shiftr_div_pow2 by lia. reflexivity.
Qed.
(*@ex
Example C04_simple_slice_ex : bs_getitem (bits 16 0xabcd) (KSlice (sl 4 12)) = Ok (bits 8 0xbc).
Proof. reflexivity. Qed.
@*)

(*@doc C04, one bit.  Note that an index at or above the width reads 0. @*)
Lemma C04_index_proof : forall b i, wf b ->
  (0 <= i -> bs_getitem b (KInt i) = Ok (bits 1 (if bit b i then 1 else 0))) /\
  (- bw b <= i < 0 -> bs_getitem b (KInt i) = Ok (bits 1 (if bit b (bw b + i) then 1 else 0))) /\
  (i < - bw b -> bs_getitem b (KInt i) = Err ValueError) /\
  (bw b <= i -> bs_getitem b (KInt i) = Ok (bits 1 0)) /\
  (0 <= i -> bs_get_bit_value b i = Ok (if bit b i then 1 else 0)) /\
  (i < 0 -> bs_get_bit_value b i = Err ValueError).
Proof.
  intros b i Hb. pose proof Hb as (Hw & _). cbn [bs_getitem].
  assert (B : forall x : bool, mkbs 1 (if x then 1 else 0) 1 = bits 1 (if x then 1 else 0)) by (intros []; reflexivity).
  repeat split; intros H.
  - rewrite get_bit_ok by lia. now rewrite B.
  - rewrite get_bit_neg by lia. now rewrite B.
  - apply get_bit_err; lia.
  - rewrite get_bit_ok by lia. rewrite bit_above by auto. reflexivity.
  - unfold bs_get_bit_value, py_shr. destruct (Z.ltb_spec i 0); [lia|]. cbn [bind].
    rewrite land1_testbit by lia. reflexivity.
  - unfold bs_get_bit_value, py_shr. destruct (Z.ltb_spec i 0); [reflexivity|lia].
Qed.
(*@ex
Example C04_index_ex : bs_getitem (bits 8 64) (KInt (-2)) = Ok (bits 1 1).
Proof. reflexivity. Qed.
@*)
(*@doc C04, an index that is neither a number nor a slice. @*)
Lemma C04_bad_index_proof : forall b, bs_getitem b KOther = Err TypeError.
Proof. reflexivity. Qed.
(*@ex
Example C04_bad_index_ex : bs_getitem (bits 8 64) KOther = Err TypeError /\ bs_getitem (bits 8 64) (KInt 6) = Ok (bits 1 1).
Proof. split; reflexivity. Qed.
@*)

(*@doc C05, single bits. @*)
Lemma C05_bit_proof : forall b i value z, wf b -> - bw b <= i < bw b ->
  value = VInt z \/ value = VBits (mkbs 1 z 1) ->
  exists r, bs_setitem b (KInt i) value = Ok r /\ wf r /\ bw r = bw b /\
    forall j, 0 <= j < bw b ->
      bit r j = if j =? from_end (bw b) i then Z.odd z else bit b j.
Proof.
  intros b i value z Hb Hi Hv.
  destruct (setbit_ok b i value z Hb Hi) as (r & E & W & Wd & B).
  { destruct Hv as [->| ->]; reflexivity. }
  exists r. split; [exact E|]. split; auto. split; auto.
  intros j Hj. rewrite B by lia. unfold from_end. replace (bw b + i) with (i + bw b) by lia. reflexivity.
Qed.
(*@ex
Example C05_bit_ex : bs_setitem (bits 8 0) (KInt (-1)) (VInt 3) = Ok (bits 8 128).
Proof. reflexivity. Qed.
@*)

(*@doc C05, failures (the object is then unchanged: C01_failure_unchanged). @*)
Lemma C05_bit_errors_proof : forall b i value, wf b ->
  (bw b <= i -> bs_setitem b (KInt i) value = Err IndexError) /\
  (i < bw b -> (value = VNone \/ value = VOther \/ (exists s, value = VStr s)) ->
     bs_setitem b (KInt i) value = Err TypeError) /\
  (i < bw b -> (exists x, value = VBits x /\ bw x <> 1) -> bs_setitem b (KInt i) value = Err ValueError) /\
  (i < - bw b -> (exists z, value = VInt z) -> bs_setitem b (KInt i) value = Err ValueError) /\
  bs_setitem b KOther value = Err TypeError.
Proof.
  intros b i value Hb. pose proof Hb as (Hw & _). cbn [bs_setitem]. repeat split.
  - apply setbit_high.
  - intros H Hv. apply setbit_badval; auto. destruct Hv as [->|[->|[s ->]]]; reflexivity.
  - intros H [x [-> Hx]]. apply setbit_badval; auto. cbn. destruct (Z.eqb_spec (bw x) 1); [lia|reflexivity].
  - intros H [z ->]. apply (setbit_low _ _ _ z); auto.
Qed.
(*@ex
Example C05_bit_errors_ex : bs_setitem (bits 8 0) (KInt 8) (VInt 1) = Err IndexError /\
  bs_setitem (bits 8 0) (KInt (-9)) (VInt 1) = Err ValueError.
Proof. split; reflexivity. Qed.
@*)

(*@doc C05, slices.  [x] is the value assigned; an int is first cut to 32 bits
(64 when above 2^32), see C05_slice_int. @*)
Lemma C05_slice_proof : forall b s value x start stop, wf b ->
  (value = VBits x \/ (exists t, value = VStr t /\ bs_init (VStr t) None = Ok x)) ->
  slice_bounds s (bw b) = Some (start, stop, 1) -> start <= stop ->
  exists r, bs_setitem b (KSlice s) value = Ok r /\ wf r /\ bw r = bw b /\
    forall j, 0 <= j < bw b ->
      bit r j = if (start <=? j) && (j <? stop) then bit x (j - start) else bit b j.
Proof.
  intros b s value x start stop Hb Hv Hs Hle. cbn [bs_setitem].
  apply setslice_ok; auto. destruct Hv as [->|[t [-> E]]]; auto.
Qed.
(*@ex
Example C05_slice_ex : bs_setitem (bits 16 0xffff) (KSlice (sl 4 12)) (VStr "01010101") = Ok (bits 16 0xf55f).
Proof. reflexivity. Qed.
@*)

Lemma C05_slice_int_proof : forall b s z start stop, wf b ->
  slice_bounds s (bw b) = Some (start, stop, 1) -> start <= stop ->
  exists r, bs_setitem b (KSlice s) (VInt z) = Ok r /\ wf r /\ bw r = bw b /\
    forall j, 0 <= j < bw b ->
      bit r j = if (start <=? j) && (j <? stop)
                then (j - start <? (if 2 ^ 32 <? z then 64 else 32)) && Z.testbit z (j - start)
                else bit b j.
Proof.
  intros b s z start stop Hb Hs Hle. cbn [bs_setitem].
  destruct (setslice_ok b s (VInt z) start stop (bits (if 2 ^ 32 <? z then 64 else 32) z) Hb Hs Hle eq_refl)
    as (r & E & W & Wd & B).
  exists r. split; [exact E|]. split; auto. split; auto. intros j Hj. rewrite B by lia.
  destruct (Z.leb_spec start j); cbn [andb]; auto. destruct (Z.ltb_spec j stop); auto.
  apply bit_bits; [destruct (2 ^ 32 <? z); lia|lia].
Qed.
(*@ex
Example C05_slice_int_ex : bs_setitem (bits 8 0) (KSlice (sl 1 4)) (VInt (-1)) = Ok (bits 8 14).
Proof. reflexivity. Qed.
@*)

(*@doc C05: with a wide slice an int is truncated, so the slice does not read
back as the low bits of the value. @*)
Lemma C05_slice_int_refuted_proof : exists b z r, wf b /\
  bs_setitem b (KSlice (sl 0 (bw b))) (VInt z) = Ok r /\ 0 <= z < 2 ^ bw b /\ bv r <> z.
Proof.
  exists (bits 40 0), (2 ^ 32), (bits 40 0). split; [apply wf_bits; lia|].
  split; [vm_compute; reflexivity|]. split; [cbn; lia|]. vm_compute. congruence.
Qed.

Lemma C05_slice_errors_proof : forall b s value start stop step, wf b ->
  slice_bounds s (bw b) = Some (start, stop, step) ->
  (step <> 1 -> bs_setitem b (KSlice s) value = Err ValueError) /\
  (step = 1 -> (value = VNone \/ value = VOther \/ (exists l, value = VSeq l)) ->
     bs_setitem b (KSlice s) value = Err TypeError) /\
  (step = 1 -> stop < start -> (exists x, value = VBits x) \/ (exists z, value = VInt z) ->
     bs_setitem b (KSlice s) value = Err ValueError).
Proof.
  intros b s value start stop step Hb Hs. cbn [bs_setitem].
  destruct (setslice_err b s value Hb) as (_ & E2 & E3 & E4). repeat split.
  - intros H. eapply E2; eauto.
  - intros -> Hv. eapply E3; eauto. destruct Hv as [->|[->|[l ->]]]; reflexivity.
  - intros -> Hlt Hv. destruct Hv as [[x ->]|[z ->]]; eapply E4; eauto; reflexivity.
Qed.
(*@ex
Example C05_slice_errors_ex :
  bs_setitem (bits 8 0) (KSlice (sl 5 2)) (VInt 0) = Err ValueError /\
  bs_setitem (bits 8 0) (KSlice (mkslice None None (Some 2))) (VInt 0) = Err ValueError.
Proof. split; reflexivity. Qed.
@*)

(*@doc C06. @*)
Lemma C06_signed_proof : forall b, wf b -> 2 <= bw b ->
  exists b' z, bs_signed b = Ok (b', z) /\
    - 2 ^ (bw b - 1) <= z < 2 ^ (bw b - 1) /\ z mod 2 ^ bw b = bv b /\
    forall z', - 2 ^ (bw b - 1) <= z' < 2 ^ (bw b - 1) -> z' mod 2 ^ bw b = bv b -> z' = z.
Proof.
  intros b Hb H2. destruct (signed_value b Hb H2) as (b' & E & _). exists b', (twos (bw b) (bv b)).
  split; [exact E|]. destruct (twos_range (bw b) (bv b) ltac:(lia)) as [R M].
  destruct Hb as (Hw & Hv & _). rewrite (Z.mod_small (bv b)) in M by lia.
  split; [exact R|]. split; [exact M|]. intros z' R' M'. apply twos_unique; [lia|auto|].
  rewrite M'. symmetry. apply Z.mod_small. lia.
Qed.
(*@ex
Example C06_signed_ex : exists b', bs_signed (bits 8 0xfe) = Ok (b', -2).
Proof. eexists. vm_compute. reflexivity. Qed.
@*)

(*@doc C06, widths 0 and 1: always 0. @*)
Lemma C06_signed_short_proof : forall b, bw b < 2 -> bs_signed b = Ok (b, 0).
Proof. exact signed_short. Qed.
(*@ex
Example C06_signed_short_ex : bs_signed (bits 1 1) = Ok (bits 1 1, 0).
Proof. reflexivity. Qed.
@*)

(*@doc C07 fails: reading [signed] of a negative number inverts the object, and
so does comparing it with a negative int; [~x] inverts x. @*)
Lemma C07_observe_refuted_proof : exists b b' z, wf b /\ bs_signed b = Ok (b', z) /\ bv b' <> bv b.
Proof.
  exists (bits 8 0xfe), (bits 8 1), (-2). split; [apply wf_bits; lia|].
  split; [vm_compute; reflexivity|vm_compute; congruence].
Qed.
Lemma C07_compare_refuted_proof : exists b b' r z, wf b /\
  bs_eq b (VInt z) = Ok (b', r) /\ bv b' <> bv b.
Proof.
  exists (bits 8 0xfe), (bits 8 1), true, (-2). split; [apply wf_bits; lia|].
  split; [vm_compute; reflexivity|vm_compute; congruence].
Qed.

(*@doc C07, exactly: when [signed] changes the object, and into what. @*)
Lemma C07_signed_effect_proof : forall b, wf b ->
  exists z, bs_signed b = Ok (if (2 <=? bw b) && (2 ^ (bw b - 1) <=? bv b)
                              then bits (bw b) (2 ^ bw b - 1 - bv b) else b, z).
Proof.
  intros b Hb. destruct (Z.leb_spec 2 (bw b)); cbn [andb].
  - destruct (signed_value b Hb ltac:(lia)) as (b' & E & ->). eexists. rewrite E.
    destruct (Z.leb_spec (2 ^ (bw b - 1)) (bv b)), (Z.ltb_spec (bv b) (2 ^ (bw b - 1))); try lia; reflexivity.
  - rewrite signed_short by lia. eauto.
Qed.
(*@ex
Example C07_signed_effect_ex : bs_signed (bits 8 0x7e) = Ok (bits 8 0x7e, 126) /\
  bs_signed (bits 8 0x81) = Ok (bits 8 0x7e, -127).
Proof. split; reflexivity. Qed.
@*)

(*@doc C07, the true part: comparing with anything but a negative int leaves
the object alone, and so does [inverted]; [~x] and [invert] do not. @*)
Lemma C07_compare_pure_proof : forall b v,
  (forall z, v = VInt z -> 0 <= z) ->
  (forall b' r, bs_eq b v = Ok (b', r) -> b' = b) /\
  (forall b' r, bs_ne b v = Ok (b', r) -> b' = b) /\
  (forall b' r, bs_lt b v = Ok (b', r) -> b' = b) /\
  (forall b' r, bs_le b v = Ok (b', r) -> b' = b) /\
  (forall b' r, bs_gt b v = Ok (b', r) -> b' = b) /\
  (forall b' r, bs_ge b v = Ok (b', r) -> b' = b).
Proof.
  intros b v Hv.
  assert (Eq : forall c b' r, bs_eq c v = Ok (b', r) -> b' = c).
  { intros c b' r H. destruct v; cbn [bs_eq] in H; try (inversion H; reflexivity).
    - specialize (Hv z eq_refl). destruct (Z.ltb_spec z 0); [lia|]. inversion H; reflexivity.
    - destruct (bs_init (VStr s) None); cbn [bind] in H; inversion H; reflexivity. }
  assert (Lt : forall c b' r, bs_lt c v = Ok (b', r) -> b' = c).
  { intros c b' r H. destruct v; cbn [bs_lt] in H; try (inversion H; reflexivity).
    - specialize (Hv z eq_refl). destruct (Z.ltb_spec z 0); [lia|]. inversion H; reflexivity.
    - destruct (bs_init (VStr s) None); cbn [bind] in H; inversion H; reflexivity. }
  assert (Le : forall c b' r, bs_le c v = Ok (b', r) -> b' = c).
  { intros c b' r H.
    assert (G : (let* ' (a'0, r0) := bs_eq c v in if r0 then Ok (a'0, true) else bs_lt a'0 v) = Ok (b', r) -> b' = c).
    { intros G. destruct (bs_eq c v) as [[a1 r1]|e] eqn:E; cbn [bind] in G; [|discriminate].
      apply Eq in E. subst a1. destruct r1; [inversion G; reflexivity|]. eapply Lt; eauto. }
    destruct v; cbn [bs_le] in H; auto; discriminate. }
  repeat split; intros b' r H; eauto.
  - destruct v; cbn [bs_ne] in H; try (inversion H; reflexivity);
      (match type of H with (let* ' _ := ?q in _) = _ => destruct q as [[a1 r1]|] eqn:E end;
       cbn [bind] in H; [|discriminate]; inversion H; subst; eapply Eq; eauto).
  - destruct v; cbn [bs_gt] in H; try (inversion H; reflexivity);
      (match type of H with (let* ' _ := ?q in _) = _ => destruct q as [[a1 r1]|] eqn:E end;
       cbn [bind] in H; [|discriminate]; inversion H; subst; eapply Le; eauto).
  - destruct v; cbn [bs_ge] in H; try (inversion H; reflexivity);
      (match type of H with (let* ' _ := ?q in _) = _ => destruct q as [[a1 r1]|] eqn:E end;
       cbn [bind] in H; [|discriminate]; inversion H; subst; eapply Lt; eauto).
Qed.
(*@ex
Example C07_compare_pure_ex : bs_le (bits 8 0xfe) (VInt 255) = Ok (bits 8 0xfe, true).
Proof. reflexivity. Qed.
@*)

(*@doc C08, between bitstrings. @*)
Lemma C08_order_proof : forall a b, wf a -> wf b ->
  (exists r, bs_eq a (VBits b) = Ok (a, r) /\ (r = true <-> bw a = bw b /\ bv a = bv b)) /\
  (exists r, bs_ne a (VBits b) = Ok (a, r) /\ (r = true <-> ~ (bw a = bw b /\ bv a = bv b))) /\
  (exists r, bs_lt a (VBits b) = Ok (a, r) /\ (r = true <-> bv a < bv b \/ (bv a = bv b /\ bw a < bw b))) /\
  (exists r, bs_le a (VBits b) = Ok (a, r) /\ (r = true <-> bv a < bv b \/ (bv a = bv b /\ bw a <= bw b))) /\
  (exists r, bs_gt a (VBits b) = Ok (a, r) /\ (r = true <-> bv b < bv a \/ (bv b = bv a /\ bw b < bw a))) /\
  (exists r, bs_ge a (VBits b) = Ok (a, r) /\ (r = true <-> bv b < bv a \/ (bv b = bv a /\ bw b <= bw a))).
Proof.
  intros a b Ha Hb. unfold bs_ge, bs_gt, bs_le, bs_ne. cbn [bs_eq bs_lt bind].
  assert (L : bs_ltb a b = true <-> bv a < bv b \/ (bv a = bv b /\ bw a < bw b)) by apply ltb_spec.
  assert (E : bs_eqb a b = true <-> bw a = bw b /\ bv a = bv b)
    by (unfold bs_eqb; rewrite andb_true_iff, !Z.eqb_eq; reflexivity).
  assert (LE : (if bs_eqb a b then Ok (a, true) else Ok (a, bs_ltb a b)) = Ok (a, (bs_eqb a b || bs_ltb a b)%bool))
    by (destruct (bs_eqb a b); reflexivity).
  rewrite LE. cbn [bind].
  split; [|split; [|split; [|split; [|split]]]]; eexists; (split; [reflexivity|]).
  - exact E.
  - destruct (bs_eqb a b); cbn [negb]; intuition congruence.
  - exact L.
  - rewrite orb_true_iff. lia.
  - destruct (bs_eqb a b), (bs_ltb a b); cbn [orb negb]; lia.
  - destruct (bs_ltb a b); cbn [negb]; lia.
Qed.
(*@ex
Example C08_order_ex : bs_lt (bits 4 5) (VBits (bits 8 5)) = Ok (bits 4 5, true) /\
  bs_ge (bits 4 5) (VBits (bits 8 5)) = Ok (bits 4 5, false).
Proof. split; reflexivity. Qed.
@*)

(*@doc C08: equal objects print (hence hash) the same, and only equal ones do. @*)
Lemma C08_repr_proof : forall a b, wf a -> wf b ->
  (bs_repr a = bs_repr b <-> bw a = bw b /\ bv a = bv b).
Proof.
  intros a b Ha Hb. split.
  - intros H. pose proof Ha as (Hwa & _). pose proof Hb as (Hwb & _).
    assert (C : chars (fmt_d (bw a)) = chars (fmt_d (bw b)) /\
                chars (bs_binary_string a) = chars (bs_binary_string b)).
    { unfold bs_repr in H. apply (f_equal chars) in H. rewrite !chars_app in H.
      assert (P : forall n, 0 <= n -> ~ In "'"%char (chars (fmt_d n))).
      { intros n Hn Hin. destruct (fmt_d_canonical n Hn) as ((HF & _) & _).
        rewrite Forall_forall in HF. specialize (HF _ Hin). unfold is_base_digit in HF.
        change (char_digit "'") with (-9) in HF. lia. }
      assert (Split : forall (l1 l2 r1 r2 : list ascii) (c : ascii), ~ In c l1 -> ~ In c l2 ->
        (l1 ++ c :: r1 = l2 ++ c :: r2)%list -> l1 = l2 /\ r1 = r2).
      { clear. induction l1 as [|x l1 IH]; intros [|y l2] r1 r2 c H1 H2 E; cbn [app] in E; inversion E; subst; auto.
        - exfalso. apply H2. left. reflexivity.
        - exfalso. apply H1. left. reflexivity.
        - destruct (IH l2 r1 r2 c) as [-> ->]; auto.
          + intros Hin. apply H1. right. auto.
          + intros Hin. apply H2. right. auto. }
      destruct (Split _ _ _ _ _ (P (bw a) Hwa) (P (bw b) Hwb) H) as [H1 H2]. split; auto.
      inversion H2. reflexivity. }
    destruct C as [C1 C2]. apply string_ext in C2.
    assert (W : bw a = bw b).
    { rewrite <- (binary_length a Hwa), <- (binary_length b Hwb), C2. reflexivity. }
    split; auto. rewrite <- (be_binary a Ha), <- (be_binary b Hb), C2. reflexivity.
  - intros [Hw Hv]. rewrite (wf_ext a b) by auto. reflexivity.
Qed.
(*@ex
Example C08_repr_ex : bs_repr (bits 4 5) = "4'b0101"%string /\ bs_repr (bits 5 5) = "5'b00101"%string.
Proof. split; reflexivity. Qed.
@*)

(*@doc C08, against ints and text. @*)
Lemma C08_int_proof : forall a z, wf a ->
  (0 <= z -> bs_eq a (VInt z) = Ok (a, bv a =? z) /\ bs_ne a (VInt z) = Ok (a, negb (bv a =? z)) /\
             bs_lt a (VInt z) = Ok (a, bv a <? z) /\ bs_le a (VInt z) = Ok (a, bv a <=? z) /\
             bs_gt a (VInt z) = Ok (a, z <? bv a) /\ bs_ge a (VInt z) = Ok (a, z <=? bv a)) /\
  (z < 0 -> 2 <= bw a -> exists a',
     bs_eq a (VInt z) = Ok (a', twos (bw a) (bv a) =? z) /\
     bs_ne a (VInt z) = Ok (a', negb (twos (bw a) (bv a) =? z)) /\
     bs_lt a (VInt z) = Ok (a', twos (bw a) (bv a) <? z) /\
     bs_ge a (VInt z) = Ok (a', z <=? twos (bw a) (bv a))).
Proof.
  intros a z Ha. split.
  - intros Hz. unfold bs_ne, bs_gt, bs_ge, bs_le, bs_eq, bs_lt. destruct (Z.ltb_spec z 0); [lia|]. cbn [bind].
    repeat split.
    + destruct (Z.eqb_spec (bv a) z); do 2 f_equal; lia.
    + destruct (Z.eqb_spec (bv a) z); cbn [bind]; do 2 f_equal; lia.
    + do 2 f_equal; lia.
  - intros Hz H2. destruct (signed_value a Ha H2) as (a' & E & _). exists a'.
    unfold bs_ne, bs_ge, bs_eq, bs_lt. destruct (Z.ltb_spec z 0); [|lia]. rewrite E. cbn [bind].
    repeat split. do 2 f_equal; lia.
Qed.
(*@ex
Example C08_int_ex : exists a', bs_lt (bits 8 0xfb) (VInt (-3)) = Ok (a', true).
Proof. eexists. vm_compute. reflexivity. Qed.
@*)

(*@doc C08 fails for [<=] and [>] against negative ints: the equality test has
already inverted the object when [<] reads it (bitstring.py:179-183). @*)
Lemma C08_le_negative_refuted_proof : exists a z a', wf a /\ 2 <= bw a /\ z < 0 /\
  twos (bw a) (bv a) <= z /\ bs_le a (VInt z) = Ok (a', false) /\ bs_gt a (VInt z) = Ok (a', true).
Proof.
  exists (bits 8 0xfb), (-3), (bits 8 4). split; [apply wf_bits; lia|].
  vm_compute. intuition congruence.
Qed.
(*@doc ... they agree with the order exactly when the number is not below z. @*)
Lemma C08_le_negative_proof : forall a z, wf a -> 2 <= bw a -> z < 0 ->
  exists a', bs_le a (VInt z) = Ok (a', twos (bw a) (bv a) =? z) /\
             bs_gt a (VInt z) = Ok (a', negb (twos (bw a) (bv a) =? z)).
Proof.
  intros a z Ha H2 Hz. destruct (signed_value a Ha H2) as (a' & E & Ea).
  pose proof Ha as (Hw & Hv & Hm).
  assert (L : exists a'', bs_le a (VInt z) = Ok (a'', twos (bw a) (bv a) =? z)).
  { unfold bs_le, bs_eq, bs_lt. destruct (Z.ltb_spec z 0); [|lia]. rewrite E. cbn [bind].
    destruct (Z.eqb_spec (twos (bw a) (bv a)) z) as [Ez|Ez]; [eauto|].
    assert (P : bv a' < 2 ^ (bw a' - 1) /\ wf a' /\ bw a' = bw a).
    { pose proof (pow2_succ_split (bw a) ltac:(lia)). rewrite Ea.
      destruct (Z.ltb_spec (bv a) (2 ^ (bw a - 1))).
      - split; [lia|]. split; auto.
      - cbn [bits bw bv]. rewrite Z.mod_small by lia. split; [lia|]. split; [|reflexivity].
        apply wf_bits. lia. }
    destruct P as (P1 & P2 & P3). rewrite signed_pos by (auto; lia). cbn [bind].
    destruct P2 as (_ & P4 & _). exists a'. do 2 f_equal. lia. }
  destruct L as [a'' L]. exists a''. split; auto. unfold bs_gt. rewrite L. reflexivity.
Qed.
(*@ex
Example C08_le_negative_ex : exists a', bs_le (bits 8 0xfd) (VInt (-3)) = Ok (a', true).
Proof. eexists. vm_compute. reflexivity. Qed.
@*)

Lemma C08_text_proof : forall a s,
  match bs_init (VStr s) None with
  | Ok b => bs_eq a (VStr s) = bs_eq a (VBits b) /\ bs_lt a (VStr s) = bs_lt a (VBits b) /\
            bs_ne a (VStr s) = bs_ne a (VBits b) /\ bs_le a (VStr s) = bs_le a (VBits b) /\
            bs_gt a (VStr s) = bs_gt a (VBits b) /\ bs_ge a (VStr s) = bs_ge a (VBits b)
  | Err e => bs_eq a (VStr s) = Err e /\ bs_lt a (VStr s) = Err e
  end.
Proof.
  intros a s. unfold bs_ne, bs_gt, bs_ge, bs_le. cbn [bs_eq bs_lt].
  destruct (bs_init (VStr s) None); cbn [bind]; auto; repeat split.
Qed.
(*@ex
Example C08_text_ex : bs_eq (bits 4 5) (VStr "0101") = Ok (bits 4 5, true) /\
  bs_eq (bits 4 5) (VStr "101") = Ok (bits 4 5, false).
Proof. split; reflexivity. Qed.
@*)

Lemma C08_other_proof : forall a v, v = VNone \/ v = VOther \/ (exists l, v = VSeq l) \/ (exists py l, v = VBytearray py l) ->
  bs_eq a v = Ok (a, false) /\ bs_ne a v = Ok (a, false) /\ bs_lt a v = Err TypeError /\
  bs_le a v = Err TypeError /\ bs_gt a v = Ok (a, false) /\ bs_ge a v = Ok (a, false).
Proof. intros a v [->|[->|[[l ->]|[py [l ->]]]]]; repeat split. Qed.
(*@ex
Example C08_other_ex : bs_eq (bits 1 1) VNone = Ok (bits 1 1, false).
Proof. reflexivity. Qed.
@*)
(*@doc ... so [!=] is not the negation of [==] for operands of other types. @*)
Lemma C08_ne_refuted_proof : exists a v, bs_eq a v = Ok (a, false) /\ bs_ne a v = Ok (a, false).
Proof. exists (bits 1 1), VNone. split; reflexivity. Qed.

(*@doc C09. @*)
Lemma C09_round_trip_proof : forall b, wf b -> 1 <= bw b ->
  bs_init (VStr (bs_binary_string b)) None = Ok b.
Proof. exact binary_round. Qed.
(*@ex
Example C09_round_trip_ex : bs_binary_string (bits 5 9) = "01001"%string.
Proof. reflexivity. Qed.
@*)
Lemma C09_text_round_trip_proof : forall s, bin_text s ->
  exists b, bs_init (VStr s) None = Ok b /\ wf b /\ bs_binary_string b = s /\ bw b = strlen s.
Proof.
  intros s H. pose proof (init_text s H) as E. eexists. split; [exact E|].
  split; [eapply init_wf; eauto|]. split; [|reflexivity]. now apply binary_of_text.
Qed.
(*@ex
Example C09_text_round_trip_ex : bs_init (VStr "0011") None = Ok (bits 4 3).
Proof. reflexivity. Qed.
@*)
Lemma C09_characters_proof : forall b, wf b ->
  strlen (bs_binary_string b) = bw b /\
  (forall i, 0 <= i < bw b ->
     nth (Z.to_nat (bw b - 1 - i)) (chars (bs_binary_string b)) "x"%char = (if bit b i then "1" else "0")%char) /\
  List.length (bs_iter b) = Z.to_nat (bw b) /\
  (forall i, 0 <= i < bw b -> nth (Z.to_nat i) (bs_iter b) 7 = if bit b i then 1 else 0) /\
  bs_binary_string (bits 0 0) = EmptyString.
Proof.
  intros b (Hw & _). split; [now apply binary_length|]. split; [|split; [|split]].
  - intros i Hi. rewrite binary_chars.
    assert (HL : List.length (map (fun i0 : Z => bitc (bit b i0)) (py_range (bw b))) = Z.to_nat (bw b))
      by (rewrite map_length; unfold py_range; rewrite map_length, seq_length; reflexivity).
    rewrite rev_nth by lia. rewrite HL.
    rewrite nth_indep with (d' := bitc (bit b 0)) by lia.
    rewrite (map_nth (fun i => bitc (bit b i))). rewrite py_range_nth by lia.
    replace (Z.of_nat (Z.to_nat (bw b) - S (Z.to_nat (bw b - 1 - i)))) with i by lia. reflexivity.
  - rewrite iter_ok. now apply map_b2z_length.
  - intros i Hi. rewrite iter_ok. rewrite nth_indep with (d' := 0) by (rewrite map_b2z_length by lia; lia).
    rewrite map_b2z_nth by lia. rewrite Z2Nat.id by lia. reflexivity.
  - reflexivity.
Qed.
(*@ex
Example C09_characters_ex : bs_iter (bits 5 9) = [1;0;0;1;0].
Proof. reflexivity. Qed.
@*)

(*@doc C10. @*)
Lemma C10_zero_extend_proof : forall b w, wf b ->
  (bw b <= w -> exists r, bs_zero_extend b w = Ok r /\ wf r /\ bw r = w /\ bv r = bv b) /\
  (w < bw b -> bs_zero_extend b w = Err ValueError).
Proof.
  intros b w Hb. pose proof Hb as (Hw & Hv & _). split.
  - intros H. rewrite zero_extend_ok by auto. eexists. split; [reflexivity|].
    split; [apply wf_bits; lia|]. split; [reflexivity|]. cbn [bits bv]. apply Z.mod_small.
    pose proof (pow2_le (bw b) w ltac:(lia)). lia.
  - apply zero_extend_err.
Qed.
(*@ex
Example C10_zero_extend_ex : bs_zero_extend (bits 4 12) 8 = Ok (bits 8 12).
Proof. reflexivity. Qed.
@*)
Lemma C10_sign_extend_proof : forall b w, wf b ->
  (1 <= bw b <= w -> exists r, bs_sign_extend b w = Ok r /\ wf r /\ bw r = w /\
     twos w (bv r) = twos (bw b) (bv b) /\
     (2 <= bw b -> exists b' r' z, bs_signed b = Ok (b', z) /\ bs_signed r = Ok (r', z))) /\
  (w < bw b -> bs_sign_extend b w = Err ValueError) /\
  (bw b = 0 -> 0 < w -> bs_sign_extend b w = Err ValueError).
Proof.
  intros b w Hb. pose proof Hb as (Hw & Hv & _). split; [|split].
  - intros H. rewrite sign_extend_ok by (auto; lia). set (r := bits w (twos (bw b) (bv b))).
    assert (W : wf r) by (apply wf_bits; lia).
    assert (T : twos w (bv r) = twos (bw b) (bv b)).
    { unfold r; cbn [bits bv]. rewrite twos_mod by lia. apply twos_twos. lia. }
    exists r. split; [reflexivity|]. split; [exact W|]. split; [reflexivity|]. split; [exact T|].
    intros H2. destruct (signed_value b Hb H2) as (b' & E & _).
    destruct (signed_value r W ltac:(cbn; lia)) as (r' & E' & _).
    change (bw r) with w in E'. rewrite T in E'. eauto.
  - apply sign_extend_err.
  - apply sign_extend_empty.
Qed.
(*@ex
Example C10_sign_extend_ex : bs_sign_extend (bits 4 12) 8 = Ok (bits 8 0xfc) /\
  bs_sign_extend (bits 4 4) 8 = Ok (bits 8 4).
Proof. split; reflexivity. Qed.
@*)

(*@doc C11. @*)
Lemma C11_invert_proof : forall b, wf b ->
  exists r, bs_inverted b = Ok r /\ bs_invert b = Ok r /\ wf r /\ bw r = bw b /\
    (forall i, 0 <= i < bw b -> bit r i = negb (bit b i)) /\ bs_inverted r = Ok b.
Proof.
  intros b Hb. pose proof Hb as (Hw & Hv & Hm). rewrite inverted_ok, invert_ok by auto.
  set (r := bits _ _). assert (W : wf r) by (apply wf_bits; lia).
  assert (V : bv r = 2 ^ bw b - 1 - bv b) by (unfold r; cbn [bits bv]; apply Z.mod_small; lia).
  exists r. split; [reflexivity|]. split; [reflexivity|]. split; [exact W|]. split; [reflexivity|]. split.
  - intros i Hi. unfold bit. rewrite V. now apply bit_complement.
  - rewrite inverted_ok by auto. change (bw r) with (bw b). rewrite V. f_equal.
    transitivity (bits (bw b) (bv b)); [f_equal; lia|symmetry; now apply wf_eq_bits].
Qed.
(*@ex
Example C11_invert_ex : bs_inverted (bits 8 0x0f) = Ok (bits 8 0xf0).
Proof. reflexivity. Qed.
@*)
Lemma C11_reverse_proof : forall b, wf b -> 1 <= bw b ->
  exists r, bs_reversed b = Ok r /\ bs_reverse b = Ok r /\ wf r /\ bw r = bw b /\
    (forall i, 0 <= i < bw b -> bit r i = bit b (bw b - 1 - i)) /\ bs_reversed r = Ok b.
Proof.
  intros b Hb H. destruct (reversed_ok b Hb H) as (r & E & W & Wd & B). exists r.
  split; [exact E|]. split; [unfold bs_reverse; rewrite E; reflexivity|]. split; [exact W|].
  split; [exact Wd|]. split; [exact B|]. now apply (reversed_twice b r).
Qed.
(*@ex
Example C11_reverse_ex : bs_reversed (bits 8 0x13) = Ok (bits 8 0xc8).
Proof. reflexivity. Qed.
@*)
(*@doc C11 fails for the empty bitstring: [int('', 2)] raises. @*)
Lemma C11_reverse_empty_refuted_proof : exists b, wf b /\ bs_reversed b = Err ValueError.
Proof. exists (bits 0 0). split; [apply wf_bits; lia|reflexivity]. Qed.

(*@doc C12, integers: exact for all of 0 .. 2^64 - 1 except 2^32. @*)
Lemma C12_int_proof : forall n,
  (0 <= n < 2 ^ 32 -> bs_init (VInt n) None = Ok (mkbs 32 n (2 ^ 32 - 1))) /\
  (2 ^ 32 < n < 2 ^ 64 -> bs_init (VInt n) None = Ok (mkbs 64 n (2 ^ 64 - 1))) /\
  (n <= 2 ^ 32 -> bs_init (VInt n) None = Ok (bits 32 n)) /\
  (2 ^ 32 < n -> bs_init (VInt n) None = Ok (bits 64 n)).
Proof.
  intros n. unfold bs_init. cbn [bs_raw bind]. change (Z.shiftl 1 32) with (2 ^ 32).
  repeat split; intros H.
  - destruct (Z.ltb_spec (2 ^ 32) n); [lia|]. rewrite finish_ok, bits_small by lia. reflexivity.
  - destruct (Z.ltb_spec (2 ^ 32) n); [|lia]. rewrite finish_ok, bits_small by lia. reflexivity.
  - destruct (Z.ltb_spec (2 ^ 32) n); [lia|]. apply finish_ok. lia.
  - destruct (Z.ltb_spec (2 ^ 32) n); [|lia]. apply finish_ok. lia.
Qed.
(*@ex
Example C12_int_ex : bs_init (VInt (2 ^ 32 + 1)) None = Ok (mkbs 64 4294967297 (2 ^ 64 - 1)).
Proof. reflexivity. Qed.
@*)
Lemma C12_int_refuted_proof : exists n b, 0 <= n < 2 ^ 64 /\ bs_init (VInt n) None = Ok b /\ bv b <> n.
Proof.
  exists (2 ^ 32), (bits 32 0). split; [split; vm_compute; congruence|]. split; [reflexivity|vm_compute; congruence].
Qed.
(*@doc C12, explicit width: the value modulo 2^width, for every kind of value. @*)
Lemma C12_width_proof : forall w, 0 <= w ->
  (forall n, bs_init (VInt n) (Some w) = Ok (bits w n)) /\
  (forall b, bs_init (VBits b) (Some w) = Ok (bits w (bv b))) /\
  (forall s, bin_text s -> bs_init (VStr s) (Some w) = Ok (bits w (be_number 2 (text_bits s)))) /\
  bs_init VNone (Some w) = Ok (bits w 0).
Proof.
  intros w Hw. unfold bs_init. repeat split.
  - intros. cbn [bs_raw bind]. now apply finish_ok.
  - intros. cbn [bs_raw bind]. now apply finish_ok.
  - intros s H. cbn [bs_raw]. rewrite int_base2_ok by auto. cbn [bind]. now apply finish_ok.
  - cbn [bs_raw bind]. now apply finish_ok.
Qed.
(*@ex
Example C12_width_ex : bs_init (VInt (-1)) (Some 5) = Ok (bits 5 31).
Proof. reflexivity. Qed.
@*)
(*@doc C12: a negative width is a ValueError, whatever the value; a value that cannot be read
raises the same exception for all widths. @*)
Lemma C12_errors_proof :
  (forall w w' v b, w < 0 -> bs_init v (Some w') = Ok b -> bs_init v (Some w) = Err ValueError) /\
  (forall w w' v e, 0 <= w -> bs_init v (Some w) = Err e -> bs_init v (Some w') = Err e /\ bs_init v None = Err e) /\
  (forall w, bs_init VOther w = Err TypeError) /\
  (forall w, bs_init (VSeq []) w = Err TypeError) /\
  (forall w, bs_init (VStr EmptyString) w = Err ValueError) /\
  (forall b, wf b -> bs_init (VBits b) None = Ok b).
Proof.
  split; [|split].
  - intros w w' v b Hw H. unfold bs_init in H. destruct (bs_raw v) as [p|] eqn:E; [|discriminate]. eapply init_int_neg; eauto.
  - intros w w' v e Hw H. unfold bs_init in *. destruct (bs_raw v) as [[x y]|z]; cbn [bind] in *; [rewrite finish_ok in H by exact Hw; discriminate H|]. now split.
  - repeat split. intros b Hb. now apply init_copy.
Qed.
(*@ex
Example C12_errors_ex : bs_init (VInt 3) (Some (-1)) = Err ValueError /\ bs_init (VInt 3) (Some 5) = Ok (bits 5 3) /\
  bs_init (VStr "12") (Some 5) = Err ValueError.
Proof. split; [|split]; reflexivity. Qed.
@*)
Lemma C12_bit_list_proof : forall l, l <> [] -> Forall (fun d => d = 0 \/ d = 1) l ->
  bs_init (VSeq l) None = Ok (mkbs (Z.of_nat (List.length l)) (be_number 2 l) (2 ^ Z.of_nat (List.length l) - 1)).
Proof.
  intros l Hne H. apply init_bits_list; auto. eapply Forall_impl; [|exact H]. cbv beta. intros; lia.
Qed.
(*@ex
Example C12_bit_list_ex : bs_init (VSeq [1;1;0;1]) None = Ok (bits 4 13).
Proof. reflexivity. Qed.
@*)
(*@doc C12 fails for the bytearrays of Python 3: they take the 0/1-list branch. @*)
Lemma C12_bytearray_refuted_proof : exists l b,
  Forall (fun x => 0 <= x < 256) l /\ bs_init (VBytearray Py3 l) None = Ok b /\
  bv b <> le_number l /\ bw b <> 8 * Z.of_nat (List.length l).
Proof.
  exists [0x34; 0x12], (bits 2 2). split; [repeat constructor; lia|].
  split; [reflexivity|]. split; vm_compute; congruence.
Qed.
Lemma C12_bytes_round_trip_refuted_proof : exists x y, wf x /\
  bs_init (VBytearray Py3 (bs_bytes x)) (Some (bw x)) = Ok y /\ y <> x.
Proof.
  exists (bits 16 0x1234), (bits 16 0x7a). split; [apply wf_bits; lia|].
  split; [reflexivity|vm_compute; congruence].
Qed.
(*@doc C12 in Python 3, the part of the byte round trip that holds: one byte at most;
and [x.bytes] itself is the little-endian number for every width. @*)
Lemma C12_bytes_round_trip_partial_proof : forall x, wf x -> 1 <= bw x <= 8 ->
  bs_init (VBytearray Py3 (bs_bytes x)) (Some (bw x)) = Ok x.
Proof.
  intros x Hx H. pose proof Hx as (Hw & Hv & _).
  assert (Hl : (bw x + 7) / 8 = 1) by (symmetry; apply (Z.div_unique _ _ _ (bw x - 1)); lia).
  assert (E : bs_bytes x = [bv x]).
  { pose proof (bytes_length x Hw) as L. pose proof (bytes_le x Hx) as V. rewrite Hl in L.
    destruct (bs_bytes x) as [|y [|? ?]]; cbn in L; try lia. cbn [le_number] in V. f_equal. lia. }
  rewrite E. unfold bs_init. cbn [bs_raw reduce_bits bind fold_left].
  rewrite finish_ok by lia. f_equal. symmetry. now apply wf_eq_bits.
Qed.
(*@ex
Example C12_bytes_round_trip_ex : bs_init (VBytearray Py3 (bs_bytes (bits 7 77))) (Some 7) = Ok (bits 7 77).
Proof. reflexivity. Qed.
@*)
(*@doc C12 in Python 3, exactly: a bytearray is read as a list of numbers, each
shifted in by one bit; an empty one raises. @*)
Lemma C12_bytearray_py3_proof : forall l w, bs_init (VBytearray Py3 l) w = bs_init (VSeq l) w.
Proof. reflexivity. Qed.
(*@ex
Example C12_bytearray_py3_ex : bs_init (VBytearray Py3 [0x34; 0x12]) None = Ok (bits 2 2) /\
  bs_init (VBytearray Py3 []) None = Err TypeError.
Proof. split; reflexivity. Qed.
@*)
(*@doc C12 in Python 2: the little-endian number, eight bits a byte, for every
bytearray; cut off at a given width. @*)
Lemma C12_bytearray_py2_proof : forall l, Forall (fun x => 0 <= x < 256) l ->
  bs_init (VBytearray Py2 l) None = Ok (mkbs (8 * Z.of_nat (List.length l)) (le_number l)
    (2 ^ (8 * Z.of_nat (List.length l)) - 1)) /\
  forall w, 0 <= w -> bs_init (VBytearray Py2 l) (Some w) = Ok (mkbs w (le_number l mod 2 ^ w) (2 ^ w - 1)).
Proof.
  intros l H. unfold bs_init. cbn [bs_raw bind]. rewrite or_bytes_le by exact H.
  pose proof (le_number_range l H) as R. split.
  - rewrite finish_ok by lia. unfold bits. rewrite (Z.mul_comm _ 8).
    rewrite Z.mod_small; [reflexivity|]. rewrite Z.pow_mul_r by lia. exact R.
  - intros w Hw. now rewrite finish_ok by lia.
Qed.
(*@ex
Example C12_bytearray_py2_ex : bs_init (VBytearray Py2 [0x34; 0x12]) None = Ok (bits 16 0x1234) /\
  bs_init (VBytearray Py2 []) None = Ok (bits 0 0).
Proof. split; reflexivity. Qed.
@*)
(*@doc C12 in Python 2: [bitstring(x.bytes, x.width) == x] for every bitstring. @*)
Lemma C12_bytes_round_trip_py2_proof : forall x, wf x ->
  bs_init (VBytearray Py2 (bs_bytes x)) (Some (bw x)) = Ok x.
Proof.
  intros x Hx. pose proof Hx as (Hw & Hv & Hm).
  destruct (C12_bytearray_py2_proof (bs_bytes x) (bytes_range x)) as [_ E].
  rewrite E by exact Hw. rewrite bytes_le by exact Hx. rewrite Z.mod_small by exact Hv.
  destruct x as [w v m]. cbn in *. now subst m.
Qed.
(*@ex
Example C12_bytes_round_trip_py2_ex :
  bs_init (VBytearray Py2 (bs_bytes (bits 20 0xabcde))) (Some 20) = Ok (bits 20 0xabcde).
Proof. reflexivity. Qed.
@*)
(*@doc One byte with a given width is the same bitstring in both interpreters: what
the memory of the mock processor hands out for one byte. @*)
Lemma C12_one_byte_proof : forall py b w, bs_init (VBytearray py [b]) (Some w) = bs_init (VInt b) (Some w).
Proof.
  intros [] b w; unfold bs_init; cbn [bs_raw bind reduce_bits fold_left]; [|reflexivity].
  change (or_bytes [b]) with (Z.lor 0 (Z.shiftl b 0)). now rewrite Z.shiftl_0_r, Z.lor_0_l.
Qed.
(*@ex
Example C12_one_byte_ex : bs_init (VBytearray Py2 [0x80]) (Some 8) = Ok (bits 8 0x80).
Proof. reflexivity. Qed.
@*)
(*@doc [x % bytearray] in Python 2: not a sequence, so a copy of x (compare
C02_unsupported); in Python 3 the list is appended. @*)
Lemma C12_mod_bytearray_proof : forall a l, wf a ->
  bs_mod a (VBytearray Py2 l) = Ok a /\ bs_mod a (VBytearray Py3 l) = bs_mod a (VSeq l).
Proof. intros a l Ha. split; [now apply init_copy|reflexivity]. Qed.
(*@ex
Example C12_mod_bytearray_ex : bs_mod (bits 2 1) (VBytearray Py2 [1; 0]) = Ok (bits 2 1) /\
  bs_mod (bits 2 1) (VBytearray Py3 [1; 0]) = Ok (bits 4 6).
Proof. split; reflexivity. Qed.
@*)
Lemma C12_bytes_proof : forall x, wf x ->
  Z.of_nat (List.length (bs_bytes x)) = (bw x + 7) / 8 /\ le_number (bs_bytes x) = bv x /\
  forall i, 0 <= i < (bw x + 7) / 8 -> nth (Z.to_nat i) (bs_bytes x) 0 = (bv x / 256 ^ i) mod 256.
Proof.
  intros x Hx. split; [apply bytes_length; apply Hx|]. split; [now apply bytes_le|apply bytes_nth].
Qed.
(*@ex
Example C12_bytes_ex : bs_bytes (bits 20 0xabcde) = [0xde; 0xbc; 0xa].
Proof. reflexivity. Qed.
@*)
(*@doc [zeros] and [ones]; a count of zero (or less) raises. @*)
Lemma C12_zeros_ones_proof : forall n,
  (1 <= n -> zeros n = Ok (bits n 0) /\ ones n = Ok (bits n (2 ^ n - 1))) /\
  (n <= 0 -> zeros n = Err ValueError /\ ones n = Err ValueError).
Proof.
  intros n. split; intros H.
  - assert (G : forall c, bin_char c ->
      bs_init (VStr (repeat_char c (Z.to_nat n))) None = Ok (bits n (bit_of_char c * (2 ^ n - 1)))).
    { intros c Hc. assert (L : strlen (repeat_char c (Z.to_nat n)) = n)
        by (unfold strlen; rewrite repeat_char_length; lia).
      rewrite init_text.
      - rewrite L. f_equal. unfold text_bits. rewrite repeat_char_chars.
        assert (R : map bit_of_char (repeat c (Z.to_nat n)) = repeat (bit_of_char c) (Z.to_nat n)).
        { clear. induction (Z.to_nat n) as [|k IH]; [reflexivity|]. cbn [repeat map]. now rewrite IH. }
        rewrite R, be_repeat by apply bit_of_char_range. rewrite Z2Nat.id by lia.
        symmetry. apply bits_small. pose proof (bit_of_char_range c). pose proof (pow2_pos n). nia.
      - split.
        + intros E. rewrite E in L. cbn in L. lia.
        + rewrite repeat_char_chars. apply Forall_forall. intros x Hx. apply repeat_spec in Hx. subst; auto. }
    unfold zeros, ones. rewrite !G by (first [left; reflexivity|right; reflexivity]).
    change (bit_of_char "0") with 0. change (bit_of_char "1") with 1.
    split; do 2 f_equal; lia.
  - unfold zeros, ones. replace (Z.to_nat n) with 0%nat by lia. split; reflexivity.
Qed.
(*@ex
Example C12_zeros_ones_ex : ones 5 = Ok (bits 5 31) /\ zeros 3 = Ok (bits 3 0).
Proof. split; reflexivity. Qed.
@*)

(*@doc C13. @*)
Lemma C13_queries_proof : forall b, wf b ->
  bs_bit_count b = Ok (ones_below (Z.to_nat (bw b)) (bv b)) /\
  (bs_is_zero b = true <-> forall i, 0 <= i < bw b -> bit b i = false) /\
  (bs_is_ones b = true <-> forall i, 0 <= i < bw b -> bit b i = true) /\
  bs_is_zero_bit b = Ok (bits 1 (if bv b =? 0 then 1 else 0)) /\
  bs_is_ones_bit b = Ok (bits 1 (if bv b =? 2 ^ bw b - 1 then 1 else 0)).
Proof.
  intros b Hb. pose proof Hb as (Hw & Hv & Hm). pose proof (pow2_pos (bw b) Hw).
  split; [now apply bit_count_ok|]. repeat split.
  - unfold bs_is_zero. intros E i Hi. apply Z.eqb_eq in E. unfold bit. rewrite E. apply Z.testbit_0_l.
  - intros Hz. apply Z.eqb_eq. apply (bits_ext _ _ (bw b)); auto; [lia|].
    intros i Hi. rewrite Z.testbit_0_l. now apply Hz.
  - unfold bs_is_ones. intros E i Hi. apply Z.eqb_eq in E. unfold bit. rewrite E, Hm.
    replace (2 ^ bw b - 1) with (Z.ones (bw b)) by (rewrite Z.ones_equiv; lia). apply Z.ones_spec_low. lia.
  - intros Hz. apply Z.eqb_eq. rewrite Hm. apply (bits_ext _ _ (bw b)); auto; [lia|].
    intros i Hi. replace (2 ^ bw b - 1) with (Z.ones (bw b)) by (rewrite Z.ones_equiv; lia).
    rewrite Z.ones_spec_low by lia. now apply Hz.
  - unfold bs_is_zero_bit, bs_is_zero. destruct (bv b =? 0); reflexivity.
  - unfold bs_is_ones_bit, bs_is_ones. rewrite Hm. destruct (bv b =? 2 ^ bw b - 1); reflexivity.
Qed.
(*@ex
Example C13_queries_ex : bs_bit_count (bits 16 0xf0f1) = Ok 9 /\ bs_is_ones (bits 3 7) = true.
Proof. split; reflexivity. Qed.
@*)
Lemma C13_extreme_bits_proof : forall b, wf b ->
  (bv b = 0 -> bs_lowest_set_bit b = bw b /\ bs_highest_set_bit b = -1) /\
  (bv b <> 0 ->
     0 <= bs_lowest_set_bit b < bw b /\ bit b (bs_lowest_set_bit b) = true /\
     (forall k, 0 <= k < bs_lowest_set_bit b -> bit b k = false) /\
     0 <= bs_highest_set_bit b < bw b /\ bit b (bs_highest_set_bit b) = true /\
     (forall k, bs_highest_set_bit b < k -> bit b k = false)).
Proof.
  intros b Hb. destruct (lowest_ok b Hb) as [L0 L1]. destruct (highest_ok b Hb) as [H0 H1].
  split; intros H; [split; auto|]. destruct (L1 H) as (? & ? & ?), (H1 H) as (? & ? & ?). intuition.
Qed.
(*@ex
Example C13_extreme_bits_ex : bs_lowest_set_bit (bits 16 0x0ff0) = 4 /\ bs_highest_set_bit (bits 16 0x0ff0) = 11.
Proof. split; reflexivity. Qed.
@*)

(*@doc C14. @*)
Lemma C14_bitwise_proof : forall a b, wf a -> wf b ->
  exists x y z, bs_and a (VBits b) = Ok x /\ bs_or a (VBits b) = Ok y /\ bs_xor a (VBits b) = Ok z /\
    wf x /\ wf y /\ wf z /\
    bw x = bw a /\ bw y = Z.max (bw a) (bw b) /\ bw z = Z.max (bw a) (bw b) /\
    forall i, 0 <= i -> bit x i = bit a i && bit b i /\ bit y i = bit a i || bit b i /\
                        bit z i = xorb (bit a i) (bit b i).
Proof.
  intros a b Ha Hb. pose proof Ha as (Hwa & _). pose proof Hb as (Hwb & _).
  do 3 eexists. split; [apply and_ok; eauto; reflexivity|]. split; [apply or_ok; eauto; reflexivity|].
  split; [apply xor_ok; eauto; reflexivity|]. cbn [wide_operand].
  split; [apply wf_bits; lia|]. split; [apply wf_bits; lia|]. split; [apply wf_bits; lia|].
  split; [reflexivity|]. split; [reflexivity|]. split; [reflexivity|].
  intros i Hi. rewrite !bit_bits by lia. rewrite Z.land_spec, Z.lor_spec, Z.lxor_spec.
  fold (bit a i) (bit b i). repeat split.
  - destruct (Z.ltb_spec i (bw a)); [reflexivity|]. rewrite (bit_above a i) by auto. reflexivity.
  - destruct (Z.ltb_spec i (Z.max (bw a) (bw b))); [reflexivity|].
    rewrite (bit_above a i), (bit_above b i) by (auto; lia). reflexivity.
  - destruct (Z.ltb_spec i (Z.max (bw a) (bw b))); [reflexivity|].
    rewrite (bit_above a i), (bit_above b i) by (auto; lia). reflexivity.
Qed.
(*@ex
Example C14_bitwise_ex : bs_and (bits 8 0xcc) (VBits (bits 4 0xa)) = Ok (bits 8 8) /\
  bs_or (bits 4 0xc) (VBits (bits 8 0xaa)) = Ok (bits 8 0xae).
Proof. split; reflexivity. Qed.
@*)
Lemma C14_bitwise_int_proof : forall a o z, wf a -> (o = VInt z \/ exists s, o = VStr s /\ means o z) ->
  bs_and a o = Ok (bits (bw a) (Z.land (bv a) z)) /\
  bs_or a o = Ok (bits (bw a) (Z.lor (bv a) z)) /\
  bs_xor a o = Ok (bits (bw a) (Z.lxor (bv a) z)).
Proof.
  intros a o z Ha Ho.
  assert (E : bit_operand o = Ok z /\ wide_operand a o = bw a).
  { destruct Ho as [->|[s [-> Hm]]]; [split; reflexivity|].
    inversion Hm; subst. cbn [bit_operand]. rewrite init_text by auto. split; reflexivity. }
  destruct E as [E1 E2]. rewrite <- E2 at 2 3.
  split; [apply and_ok; auto|]. split; [apply or_ok; auto|apply xor_ok; auto].
Qed.
(*@ex
Example C14_bitwise_int_ex : bs_and (bits 8 0xff) (VInt (-2)) = Ok (bits 8 0xfe).
Proof. reflexivity. Qed.
@*)
Lemma C14_shift_proof : forall a n, wf a ->
  (0 <= n -> bs_lshift a (VInt n) = Ok (bits (bw a) (bv a * 2 ^ n)) /\
             bs_rshift a (VInt n) = Ok (bits (bw a) (bv a / 2 ^ n))) /\
  (0 <= n -> exists x y, bs_lshift a (VInt n) = Ok x /\ bs_rshift a (VInt n) = Ok y /\
     forall i, 0 <= i < bw a -> bit x i = (n <=? i) && bit a (i - n) /\ bit y i = bit a (i + n)) /\
  (n < 0 -> bs_lshift a (VInt n) = Err ValueError /\ bs_rshift a (VInt n) = Err ValueError).
Proof.
  intros a n Ha. pose proof Ha as (Hw & Hv & _). split; [|split].
  - intros Hn. split; [now apply lshift_ok|now apply rshift_ok].
  - intros Hn. rewrite lshift_ok, rshift_ok by auto. do 2 eexists. split; [reflexivity|]. split; [reflexivity|].
    intros i Hi. rewrite !bit_bits by lia. destruct (Z.ltb_spec i (bw a)); [|lia]. cbn [andb].
    rewrite <- Z.shiftl_mul_pow2, <- Z.shiftr_div_pow2 by lia. rewrite Z.shiftl_spec, Z.shiftr_spec by lia.
    split; [|reflexivity]. destruct (Z.leb_spec n i); [reflexivity|]. apply Z.testbit_neg_r. lia.
  - intros Hn. unfold bs_lshift, bs_rshift, py_shl, py_shr. destruct (Z.ltb_spec n 0); [|lia]. split; reflexivity.
Qed.
(*@ex
Example C14_shift_ex : bs_lshift (bits 8 0x99) (VInt 3) = Ok (bits 8 0xc8) /\
  bs_rshift (bits 8 0x99) (VInt 3) = Ok (bits 8 0x13).
Proof. split; reflexivity. Qed.
@*)
Lemma C14_type_errors_proof : forall a v,
  (forall z, v <> VInt z) -> bs_lshift a v = Err TypeError /\ bs_rshift a v = Err TypeError.
Proof. intros a v H. destruct v; split; try reflexivity; exfalso; eapply H; reflexivity. Qed.
(*@ex
Example C14_type_errors_ex : bs_lshift (bits 8 1) (VBits (bits 8 1)) = Err TypeError.
Proof. reflexivity. Qed.
@*)

(*@doc C15.  [canonical] digits: no superfluous leading zero. @*)
Lemma C15_base_string_proof : forall py b base, wf b ->
  (base = 8 \/ base = 10 \/ base = 16 -> (base = 8 -> py = Py2 -> bv b <> 0) ->
   exists wd ds, bs_base_string py b base =
       Ok (wd ++ "'" ++ (if (base =? 8)%Z then "o" else if (base =? 10)%Z then "d" else "h") ++ ds)%string /\
     canonical 10 wd (bw b) /\ canonical base ds (bv b)) /\
  (base = 2 -> exists wd ds, bs_base_string py b base = Ok (wd ++ "'b" ++ ds)%string /\
     canonical 10 wd (bw b) /\ denotes 2 ds (bv b) /\ strlen ds = bw b) /\
  (base <> 2 -> base <> 8 -> base <> 10 -> base <> 16 -> bs_base_string py b base = Err ValueError).
Proof.
  intros py b base Hb. pose proof Hb as (Hw & Hv & _). unfold bs_base_string. split; [|split].
  - intros [->|[->| ->]] Hz; cbn [Z.eqb Pos.eqb].
    + exists (fmt_d (bw b)), (digits 8 (bv b)). split; [|split].
      * destruct py; [|reflexivity]. unfold oct_tail. destruct (Z.eqb_spec (bv b) 0); [|reflexivity].
        exfalso. now apply Hz.
      * now apply fmt_d_canonical.
      * apply digits_canonical; lia.
    + exists (fmt_d (bw b)), (fmt_d (bv b)). split; [reflexivity|]. split; apply fmt_d_canonical; lia.
    + exists (fmt_d (bw b)), (fmt_x (bv b)). split; [reflexivity|].
      split; [apply fmt_d_canonical; lia|apply fmt_x_canonical; lia].
  - intros ->. exists (fmt_d (bw b)), (bs_binary_string b). split; [reflexivity|].
    split; [now apply fmt_d_canonical|]. split; [|now apply binary_length].
    assert (C : forall l, Forall bin_char l -> map char_digit l = map bit_of_char l).
    { intros l H. induction H as [|c l Hc Hl IH]; cbn; [reflexivity|]. rewrite IH. f_equal.
      destruct Hc as [->| ->]; reflexivity. }
    assert (F : Forall bin_char (chars (bs_binary_string b))).
    { rewrite binary_chars. apply Forall_rev. apply Forall_forall. intros c Hc.
      apply in_map_iff in Hc. destruct Hc as (i & <- & _). apply bitc_bin. }
    split.
    + eapply Forall_impl; [|exact F]. intros c [->| ->]; unfold is_base_digit.
      * change (char_digit "0") with 0. lia.
      * change (char_digit "1") with 1. lia.
    + rewrite C by auto. fold (text_bits (bs_binary_string b)). now apply be_binary.
  - intros H1 H2 H3 H4. destruct (Z.eqb_spec base 2), (Z.eqb_spec base 8), (Z.eqb_spec base 10), (Z.eqb_spec base 16);
      try lia. reflexivity.
Qed.
(*@ex
Example C15_base_string_ex : bs_base_string Py3 (bits 12 0xabc) 16 = Ok "12'habc"%string /\
  bs_base_string Py2 (bits 8 123) 8 = Ok "8'o173"%string /\
  bs_base_string Py3 (bits 8 123) 8 = Ok "8'o173"%string /\
  bs_base_string Py2 (bits 8 123) 10 = Ok "8'd123"%string.
Proof. repeat split; reflexivity. Qed.
@*)
(*@doc C15 fails on Python 2 for zero in base 8: no digit is printed. @*)
Lemma C15_octal_zero_refuted_proof : exists b, wf b /\ bs_base_string Py2 b 8 = Ok "8'o"%string.
Proof. exists (bits 8 0). split; [apply wf_bits; lia|reflexivity]. Qed.
(*@doc C15, [hex(x)] (Python 2): zero padded to the width. @*)
Lemma C15_hex_proof : forall b, wf b -> 1 <= bw b ->
  exists wd ds, bs_hex b = (wd ++ "'h" ++ ds)%string /\ canonical 10 wd (bw b) /\
    denotes 16 ds (bv b) /\ strlen ds = (bw b + 3) / 4.
Proof.
  intros b Hb H. pose proof Hb as (Hw & Hv & _). unfold bs_hex. do 2 eexists. split; [reflexivity|].
  split; [now apply fmt_d_canonical|]. split; [apply fmt_0x_denotes; lia|].
  pose proof (Z.div_mod (bw b + 3) 4 ltac:(lia)). pose proof (Z.mod_pos_bound (bw b + 3) 4 ltac:(lia)).
  apply fmt_0x_length; [lia|]. split; [lia|]. eapply Z.lt_le_trans; [apply Hv|].
  change 16 with (2 ^ 4). rewrite <- Z.pow_mul_r by lia. apply Z.pow_le_mono_r; lia.
Qed.
(*@ex
Example C15_hex_ex : bs_hex (bits 13 0x2a) = "13'h002a"%string.
Proof. reflexivity. Qed.
@*)
