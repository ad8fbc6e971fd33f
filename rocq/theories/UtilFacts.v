(** * Facts about the utilities *)
From Verif Require Import BitstringModel SpecBits BitFacts BitOps BitText BitMisc UtilModel.
From Coq Require Import Lia ZifyBool.

Definition is_byte (b : Z) : Prop := 0 <= b < 256.

Lemma py_range_S : forall n, 0 <= n -> py_range (n + 1) = 0 :: map (fun k => k + 1) (py_range n).
Proof.
  intros n H. unfold py_range. replace (Z.to_nat (n + 1)) with (S (Z.to_nat n)) by lia.
  cbn [seq map]. f_equal. rewrite <- seq_shift, !map_map. apply map_ext. intros a. lia.
Qed.

Lemma py_nth_0 : forall a l, py_nth (a :: l) 0 = Ok a.
Proof. reflexivity. Qed.

Lemma py_nth_S : forall a l i, 0 <= i -> py_nth (a :: l) (i + 1) = py_nth l i.
Proof.
  intros a l i H. unfold py_nth. cbn [List.length].
  replace (i + 1 <? 0) with false by lia. replace (i <? 0) with false by lia.
  replace (Z.of_nat (S (List.length l)) <=? i + 1) with (Z.of_nat (List.length l) <=? i) by lia.
  replace (i + 1 <? 0) with false by lia. replace (i <? 0) with false by lia. cbn [orb].
  destruct (Z.of_nat (List.length l) <=? i); [reflexivity|].
  replace (Z.to_nat (i + 1)) with (S (Z.to_nat i)) by lia. reflexivity.
Qed.

Lemma py_nth_nth : forall l i, 0 <= i < Z.of_nat (List.length l) -> py_nth l i = Ok (nth (Z.to_nat i) l 0).
Proof.
  intros l i H. unfold py_nth. replace (i <? 0) with false by lia.
  replace (i <? 0) with false by lia. replace (Z.of_nat (List.length l) <=? i) with false by lia. cbn [orb].
  rewrite (nth_error_nth' l 0) by lia. reflexivity.
Qed.

Lemma py_nth_high : forall l i, Z.of_nat (List.length l) <= i -> py_nth l i = Err IndexError.
Proof.
  intros l i H. unfold py_nth. replace (i <? 0) with false by lia. replace (i <? 0) with false by lia.
  replace (Z.of_nat (List.length l) <=? i) with true by lia. reflexivity.
Qed.

Lemma py_nth_low : forall l i, i < - Z.of_nat (List.length l) -> py_nth l i = Err IndexError.
Proof.
  intros l i H. unfold py_nth. replace (i <? 0) with true by lia.
  replace (i + Z.of_nat (List.length l) <? 0) with true by lia. reflexivity.
Qed.

Lemma map_res_ext : forall A B (f g : A -> res B) l, (forall x, In x l -> f x = g x) -> map_res f l = map_res g l.
Proof.
  induction l as [|x l IH]; intros H; [reflexivity|]. cbn [map_res]. rewrite H by (left; reflexivity).
  rewrite IH by (intros y Hy; apply H; right; exact Hy). reflexivity.
Qed.

Lemma map_res_map : forall A B C (f : B -> res C) (g : A -> B) l,
  map_res f (map g l) = map_res (fun x => f (g x)) l.
Proof. induction l as [|x l IH]; [reflexivity|]. cbn [map map_res]. rewrite IH. reflexivity. Qed.

Lemma map_res_Ok : forall A B (f : A -> B) l, map_res (fun x => Ok (f x)) l = Ok (map f l).
Proof. induction l as [|x l IH]; [reflexivity|]. cbn [map map_res bind]. rewrite IH. reflexivity. Qed.

Lemma lor_byte : forall a b n, 0 <= n -> 0 <= a < 2 ^ n -> Z.lor a (Z.shiftl b n) = a + 2 ^ n * b.
Proof. intros. rewrite Z.lor_comm, lor_shift_add by lia. lia. Qed.

Lemma le16_val : forall a b, is_byte a -> Z.lor a (Z.shiftl b 8) = a + 256 * b.
Proof. intros a b [H1 H2]. rewrite (lor_byte a b 8) by lia. reflexivity. Qed.

Lemma le32_val : forall a b c d, is_byte a -> is_byte b -> is_byte c ->
  Z.lor (Z.lor (Z.lor a (Z.shiftl b 8)) (Z.shiftl c 16)) (Z.shiftl d 24) =
  a + 256 * b + 65536 * c + 16777216 * d.
Proof.
  intros a b c d Ha Hb Hc. unfold is_byte in *. rewrite le16_val by exact Ha.
  rewrite (lor_byte _ c 16) by lia. rewrite (lor_byte _ d 24) by lia. lia.
Qed.

Lemma land_255 : forall v, Z.land v 255 = v mod 256.
Proof. intros v. change 255 with (2 ^ 8 - 1). apply land_mask. lia. Qed.

Lemma byte_of : forall v k, 0 <= k -> Z.land (Z.shiftr v k) 255 = (v / 2 ^ k) mod 256.
Proof. intros. rewrite land_255, Z.shiftr_div_pow2 by assumption. reflexivity. Qed.

Lemma byte_of_range : forall v k, 0 <= k -> is_byte (Z.land (Z.shiftr v k) 255).
Proof. intros. rewrite byte_of by assumption. unfold is_byte. pose proof (Z.mod_pos_bound (v / 2 ^ k) 256). lia. Qed.

Lemma le16_to_bytes_eq : forall v, le16_to_bytes v = [v mod 256; (v / 256) mod 256].
Proof.
  intros v. unfold le16_to_bytes. change (py_range 2) with [0; 1]. cbn [map].
  rewrite !byte_of by lia. change (2 ^ (0 * 8)) with 1. change (2 ^ (1 * 8)) with 256. rewrite Z.div_1_r. reflexivity.
Qed.
Lemma le32_to_bytes_eq : forall v,
  le32_to_bytes v = [v mod 256; (v / 256) mod 256; (v / 65536) mod 256; (v / 16777216) mod 256].
Proof.
  intros v. unfold le32_to_bytes. change (py_range 4) with [0; 1; 2; 3]. cbn [map].
  rewrite !byte_of by lia. change (2 ^ (0 * 8)) with 1. change (2 ^ (1 * 8)) with 256.
  change (2 ^ (2 * 8)) with 65536. change (2 ^ (3 * 8)) with 16777216. rewrite Z.div_1_r. reflexivity.
Qed.

Lemma split16 : forall v, v mod 65536 = v mod 256 + 256 * ((v / 256) mod 256).
Proof. intros v. change 65536 with (256 * 256). apply Z.rem_mul_r; lia. Qed.
Lemma split32 : forall v, v mod 2 ^ 32 =
  v mod 256 + 256 * ((v / 256) mod 256) + 65536 * ((v / 65536) mod 256) + 16777216 * ((v / 16777216) mod 256).
Proof.
  intros v. change (2 ^ 32) with (65536 * 65536). rewrite Z.rem_mul_r by lia.
  rewrite split16, (split16 (v / 65536)), Z.div_div by lia.
  replace (65536 * 256) with 16777216 by lia. ring.
Qed.

Lemma bytes16_at : forall data off, 0 <= off -> off + 1 < Z.of_nat (List.length data) -> Forall is_byte data ->
  bytes_to_le16 data off =
  Ok (nth (Z.to_nat off) data 0 + 256 * nth (Z.to_nat (off + 1)) data 0).
Proof.
  intros data off H1 H2 HF. unfold bytes_to_le16. rewrite !py_nth_nth by lia. cbn [bind].
  rewrite le16_val; [reflexivity|]. rewrite Forall_forall in HF. apply HF, nth_In. lia.
Qed.

Lemma bytes32_at : forall data off, 0 <= off -> off + 3 < Z.of_nat (List.length data) -> Forall is_byte data ->
  bytes_to_le32 data off =
  Ok (nth (Z.to_nat off) data 0 + 256 * nth (Z.to_nat (off + 1)) data 0
      + 65536 * nth (Z.to_nat (off + 2)) data 0 + 16777216 * nth (Z.to_nat (off + 3)) data 0).
Proof.
  intros data off H1 H2 HF. unfold bytes_to_le32. rewrite !py_nth_nth by lia. cbn [bind].
  rewrite Forall_forall in HF.
  rewrite le32_val; [reflexivity|apply HF, nth_In; lia|apply HF, nth_In; lia|apply HF, nth_In; lia].
Qed.

(** ** List converters *)
Lemma u16_step : forall a b t, byteListToU16leList (a :: b :: t) =
  let* r := byteListToU16leList t in Ok (Z.lor a (Z.shiftl b 8) :: r).
Proof.
  intros a b t. unfold byteListToU16leList. cbn [List.length].
  replace ((Z.of_nat (S (S (List.length t))) + 1) / 2) with ((Z.of_nat (List.length t) + 1) / 2 + 1)
    by (rewrite <- Z.div_add by lia; f_equal; lia).
  rewrite py_range_S by (apply Z.div_pos; lia). cbn [map_res].
  change (2 * 0) with 0. rewrite py_nth_0. cbn [bind]. rewrite py_nth_S, py_nth_0 by lia. cbn [bind].
  rewrite map_res_map. f_equal. apply map_res_ext. intros k Hk. apply py_range_in in Hk.
  replace (2 * (k + 1)) with (2 * k + 1 + 1) by lia. rewrite !py_nth_S by lia. reflexivity.
Qed.

Lemma u16_nil : byteListToU16leList [] = Ok [].
Proof. reflexivity. Qed.
Lemma u16_one : forall a, byteListToU16leList [a] = Err IndexError.
Proof. reflexivity. Qed.

Lemma u32_step : forall a b c d t, byteListToU32leList Py2 (a :: b :: c :: d :: t) =
  let* r := byteListToU32leList Py2 t in
  Ok (Z.lor (Z.lor (Z.lor a (Z.shiftl b 8)) (Z.shiftl c 16)) (Z.shiftl d 24) :: r).
Proof.
  intros a b c d t. unfold byteListToU32leList. cbn [List.length].
  replace (Z.of_nat (S (S (S (S (List.length t))))) / 4) with (Z.of_nat (List.length t) / 4 + 1)
    by (rewrite <- Z.div_add by lia; f_equal; lia).
  rewrite py_range_S by (apply Z.div_pos; lia). cbn [map_res].
  change (0 * 4 + 0) with 0. change (0 * 4 + 1) with (0 + 1). change (0 * 4 + 2) with (0 + 1 + 1).
  change (0 * 4 + 3) with (0 + 1 + 1 + 1). rewrite !py_nth_S, !py_nth_0 by lia. cbn [bind].
  rewrite map_res_map. f_equal. apply map_res_ext. intros k Hk. apply py_range_in in Hk.
  replace ((k + 1) * 4 + 0) with (k * 4 + 0 + 1 + 1 + 1 + 1) by lia.
  replace ((k + 1) * 4 + 1) with (k * 4 + 1 + 1 + 1 + 1 + 1) by lia.
  replace ((k + 1) * 4 + 2) with (k * 4 + 2 + 1 + 1 + 1 + 1) by lia.
  replace ((k + 1) * 4 + 3) with (k * 4 + 3 + 1 + 1 + 1 + 1) by lia.
  rewrite !py_nth_S by lia. reflexivity.
Qed.

Lemma list_ind2 : forall (A : Type) (P : list A -> Prop), P [] -> (forall a, P [a]) ->
  (forall a b t, P t -> P (a :: b :: t)) -> forall l, P l.
Proof.
  intros A P H0 H1 H2. fix F 1. intros [|a [|b t]]; [exact H0|apply H1|apply H2, F].
Qed.
Lemma list_ind4 : forall (A : Type) (P : list A -> Prop),
  (forall l, (List.length l < 4)%nat -> P l) ->
  (forall a b c d t, P t -> P (a :: b :: c :: d :: t)) -> forall l, P l.
Proof.
  intros A P H0 H4. fix F 1. intros [|a [|b [|c [|d t]]]].
  1-4: apply H0; cbn; lia.
  apply H4, F.
Qed.

(** ** bitmask *)
Lemma set_bits_err : forall l e, fold_left
  (fun m b => let* m' := m in let* one := py_shl 1 b in Ok (Z.lor m' one)) l (Err e) = Err e.
Proof. induction l as [|a l IH]; intros e; [reflexivity|]. cbn [fold_left bind]. apply IH. Qed.

Lemma set_bits_ok : forall l m, (forall b, In b l -> 0 <= b) -> 0 <= m ->
  exists r, set_bits m l = Ok r /\ 0 <= r /\
  forall i, 0 <= i -> Z.testbit r i = Z.testbit m i || existsb (Z.eqb i) l.
Proof.
  unfold set_bits. induction l as [|a l IH]; intros m Hl Hm.
  - exists m. split; [reflexivity|]. split; [exact Hm|]. intros i Hi. cbn. rewrite orb_false_r. reflexivity.
  - cbn [fold_left bind]. unfold py_shl at 2.
    pose proof (Hl a (or_introl eq_refl)) as Ha. replace (a <? 0) with false by lia. cbn [bind].
    destruct (IH (Z.lor m (Z.shiftl 1 a))) as (r & E & Hr & Hb).
    + intros b Hb. apply Hl. right. exact Hb.
    + apply Z.lor_nonneg. split; [exact Hm|]. apply Z.shiftl_nonneg. lia.
    + exists r. split; [exact E|]. split; [exact Hr|]. intros i Hi. rewrite Hb by exact Hi.
      cbn [existsb]. rewrite Z.lor_spec, <- orb_assoc. f_equal. f_equal.
      rewrite Z.shiftl_1_l, Z.pow2_bits_eqb by exact Ha. apply Z.eqb_sym.
Qed.

Lemma set_bits_bad : forall l m b, In b l -> b < 0 -> set_bits m l = Err ValueError.
Proof.
  unfold set_bits. induction l as [|a l IH]; intros m b Hin Hb; [destruct Hin|].
  cbn [fold_left bind]. unfold py_shl at 2. destruct (a <? 0) eqn:E; cbn [bind].
  - apply set_bits_err.
  - destruct Hin as [->|Hin]; [lia|]. apply (IH _ b); assumption.
Qed.

Lemma bitmask_err : forall args e,
  fold_left (fun m a => let* m' := m in set_bits m' (mask_positions a)) args (Err e) = Err e.
Proof. induction args as [|a l IH]; intros e; [reflexivity|]. cbn [fold_left bind]. apply IH. Qed.

Lemma bitmask_ok_gen : forall args m, (forall a b, In a args -> In b (mask_positions a) -> 0 <= b) -> 0 <= m ->
  exists r, fold_left (fun m a => let* m' := m in set_bits m' (mask_positions a)) args (Ok m) = Ok r /\ 0 <= r /\
  forall i, 0 <= i -> Z.testbit r i = Z.testbit m i || existsb (fun a => existsb (Z.eqb i) (mask_positions a)) args.
Proof.
  induction args as [|a args IH]; intros m Ha Hm.
  - exists m. split; [reflexivity|]. split; [exact Hm|]. intros. cbn. rewrite orb_false_r. reflexivity.
  - cbn [fold_left bind].
    destruct (set_bits_ok (mask_positions a) m) as (m1 & E1 & H1 & B1).
    + intros b Hb. apply (Ha a); [left; reflexivity|exact Hb].
    + exact Hm.
    + rewrite E1. destruct (IH m1) as (r & E & Hr & B); [intros; apply (Ha a0); [right|]; assumption|exact H1|].
      exists r. split; [exact E|]. split; [exact Hr|]. intros i Hi. rewrite B, B1 by exact Hi.
      cbn [existsb]. rewrite orb_assoc. reflexivity.
Qed.

Lemma set_bits_total : forall l m e, set_bits m l = Err e -> e = ValueError.
Proof.
  unfold set_bits. induction l as [|a l IH]; intros m e H; [discriminate|].
  cbn [fold_left bind] in H. unfold py_shl at 2 in H. destruct (a <? 0); cbn [bind] in H.
  - rewrite set_bits_err in H. congruence.
  - apply (IH _ _ H).
Qed.

Lemma bitmask_bad_gen : forall args m a b, In a args -> In b (mask_positions a) -> b < 0 ->
  fold_left (fun m a => let* m' := m in set_bits m' (mask_positions a)) args (Ok m) = Err ValueError.
Proof.
  induction args as [|a0 args IH]; intros m a b Hin Hb Hn; [destruct Hin|].
  cbn [fold_left bind]. destruct Hin as [->|Hin].
  - rewrite (set_bits_bad _ m b Hb Hn). apply bitmask_err.
  - destruct (set_bits m (mask_positions a0)) as [m1|e] eqn:E.
    + exact (IH m1 a b Hin Hb Hn).
    + rewrite bitmask_err, (set_bits_total _ _ _ E). reflexivity.
Qed.

Lemma tuple_positions : forall msb lsb i, In i (mask_positions (ATuple msb lsb)) <-> lsb <= i <= msb.
Proof.
  intros. cbn [mask_positions]. rewrite in_map_iff. split.
  - intros (k & <- & Hk). apply py_range_in in Hk. lia.
  - intros H. exists (i - lsb). split; [lia|]. unfold py_range. apply in_map_iff.
    exists (Z.to_nat (i - lsb)). split; [lia|apply in_seq; lia].
Qed.

Lemma existsb_eqb : forall i l, existsb (Z.eqb i) l = true <-> In i l.
Proof.
  intros. rewrite existsb_exists. split.
  - intros (x & H & E). replace i with x by lia. exact H.
  - intros H. exists i. split; [exact H|lia].
Qed.

Lemma tuple_mask : forall msb lsb, 0 <= lsb ->
  exists m, bitmask [ATuple msb lsb] = Ok m /\ 0 <= m /\
  forall i, 0 <= i -> Z.testbit m i = (lsb <=? i) && (i <=? msb).
Proof.
  intros msb lsb H. destruct (bitmask_ok_gen [ATuple msb lsb] 0) as (m & E & Hm & B); [|lia|].
  - intros a b [<-|[]] Hb. apply tuple_positions in Hb. lia.
  - exists m. split; [exact E|]. split; [exact Hm|]. intros i Hi. rewrite B by exact Hi.
    rewrite Z.testbit_0_l. cbn [orb existsb]. rewrite orb_false_r.
    destruct (existsb (Z.eqb i) (mask_positions (ATuple msb lsb))) eqn:X.
    + apply existsb_eqb, tuple_positions in X. lia.
    + destruct ((lsb <=? i) && (i <=? msb)) eqn:Y; [|reflexivity].
      assert (In i (mask_positions (ATuple msb lsb))) as Q by (apply tuple_positions; lia).
      apply existsb_eqb in Q. congruence.
Qed.
