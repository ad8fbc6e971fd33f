(** * Proofs about the textual forms of a bitstring *)
From Verif Require Import BitstringModel SpecBits BitFacts BitOps.
From Coq Require Import Lia ZifyBool.

Definition b2z (x : bool) : Z := if x then 1 else 0.
Definition bitc (x : bool) : ascii := if x then "1"%char else "0"%char.

Lemma bit_str_ok : forall v i, 0 <= i -> bit_str v i = String (bitc (Z.testbit v i)) EmptyString.
Proof.
  intros v i Hi. unfold bit_str. rewrite land1_testbit by lia.
  destruct (Z.testbit v i); reflexivity.
Qed.

Lemma py_range_in : forall n i, In i (py_range n) -> 0 <= i < n.
Proof.
  intros n i H. unfold py_range in H. apply in_map_iff in H. destruct H as (k & <- & Hk).
  apply in_seq in Hk. lia.
Qed.
Lemma py_range_length : forall n, 0 <= n -> Z.of_nat (List.length (py_range n)) = n.
Proof. intros. unfold py_range. rewrite map_length, seq_length. lia. Qed.
Lemma py_range_nth : forall n k d, (k < Z.to_nat n)%nat -> nth k (py_range n) d = Z.of_nat k.
Proof.
  intros n k d H. unfold py_range. rewrite nth_indep with (d' := Z.of_nat 0) by (rewrite map_length, seq_length; lia).
  rewrite map_nth. rewrite seq_nth by lia. f_equal.
Qed.

Lemma binary_fold : forall v l s, (forall i, In i l -> 0 <= i) ->
  chars (fold_left (fun s i => (bit_str v i ++ s)%string) l s)
  = (rev (map (fun i => bitc (Z.testbit v i)) l) ++ chars s)%list.
Proof.
  induction l as [|i l IH]; intros s H; [reflexivity|].
  cbn [fold_left map rev]. rewrite IH by (intros; apply H; right; auto).
  rewrite bit_str_ok by (apply H; left; auto). rewrite <- app_assoc. reflexivity.
Qed.

Lemma binary_chars : forall b,
  chars (bs_binary_string b) = rev (map (fun i => bitc (bit b i)) (py_range (bw b))).
Proof.
  intros b. unfold bs_binary_string. rewrite binary_fold.
  - rewrite app_nil_r. reflexivity.
  - intros i H. apply py_range_in in H. lia.
Qed.

Lemma binary_length : forall b, 0 <= bw b -> strlen (bs_binary_string b) = bw b.
Proof.
  intros b H. unfold strlen. rewrite <- chars_length, binary_chars, rev_length, map_length.
  now apply py_range_length.
Qed.

Lemma bitc_bin : forall x, bin_char (bitc x).
Proof. intros [|]; [right|left]; reflexivity. Qed.
Lemma bit_of_bitc : forall x, bit_of_char (bitc x) = b2z x.
Proof. intros [|]; reflexivity. Qed.

Lemma binary_bin_text : forall b, 1 <= bw b -> bin_text (bs_binary_string b).
Proof.
  intros b H. split.
  - intros E. pose proof (binary_length b ltac:(lia)). rewrite E in H0. cbn in H0. lia.
  - rewrite binary_chars. apply Forall_rev. apply Forall_forall. intros c Hc.
    apply in_map_iff in Hc. destruct Hc as (i & <- & _). apply bitc_bin.
Qed.

(** Bits of a number given by its big-endian list of bits. *)
Lemma testbit_be : forall l i, Forall (fun d => 0 <= d <= 1) l -> (i < List.length l)%nat ->
  Z.testbit (be_number 2 l) (Z.of_nat i) = (nth (List.length l - 1 - i) l 0 =? 1).
Proof.
  induction l as [|d l IH] using rev_ind; intros i H Hi; [simpl in Hi; lia|].
  unfold be_number. rewrite number_app. fold (be_number 2 l). cbn [number].
  apply Forall_app in H. destruct H as [Hl Hd]. inversion Hd as [|? ? Hd1 _]; subst.
  rewrite app_length in *. cbn [List.length] in *.
  replace (be_number 2 l * 2 + d) with (2 * be_number 2 l + d) by lia.
  destruct i as [|i].
  - rewrite app_nth2 by lia. replace (List.length l + 1 - 1 - 0 - List.length l)%nat with 0%nat by lia.
    cbn [nth Z.of_nat]. assert (d = 0 \/ d = 1) as [->| ->] by lia.
    + rewrite Z.add_0_r. rewrite Z.testbit_even_0. reflexivity.
    + rewrite Z.testbit_odd_0. reflexivity.
  - rewrite Nat2Z.inj_succ. rewrite app_nth1 by lia.
    replace (List.length l + 1 - 1 - S i)%nat with (List.length l - 1 - i)%nat by lia.
    rewrite <- IH by (auto; lia).
    assert (d = 0 \/ d = 1) as [->| ->] by lia.
    + rewrite Z.add_0_r. apply Z.testbit_even_succ. lia.
    + apply Z.testbit_odd_succ. lia.
Qed.

Lemma be_bound : forall l, Forall (fun d => 0 <= d <= 1) l ->
  0 <= be_number 2 l < 2 ^ Z.of_nat (List.length l).
Proof. intros l H. pose proof (number_bound l 0 H ltac:(lia)). unfold be_number. lia. Qed.

Lemma text_binary : forall b,
  text_bits (bs_binary_string b) = rev (map (fun i => b2z (bit b i)) (py_range (bw b))).
Proof.
  intros b. unfold text_bits. rewrite binary_chars, map_rev, map_map. f_equal.
  apply map_ext. intros. apply bit_of_bitc.
Qed.

Lemma b2z_range : forall (f : Z -> bool) l, Forall (fun d => 0 <= d <= 1) (map (fun i => b2z (f i)) l).
Proof. intros f l. induction l; simpl; constructor; auto. unfold b2z. destruct (f a); lia. Qed.

Lemma map_b2z_length : forall b, 0 <= bw b ->
  List.length (map (fun i => b2z (bit b i)) (py_range (bw b))) = Z.to_nat (bw b).
Proof. intros. rewrite map_length. unfold py_range. rewrite map_length, seq_length. reflexivity. Qed.

Lemma map_b2z_nth : forall b k, (k < Z.to_nat (bw b))%nat ->
  nth k (map (fun i => b2z (bit b i)) (py_range (bw b))) 0 = b2z (bit b (Z.of_nat k)).
Proof.
  intros b k H. rewrite nth_indep with (d' := b2z (bit b 0)) by
    (rewrite map_length; unfold py_range; rewrite map_length, seq_length; lia).
  rewrite (map_nth (fun i => b2z (bit b i))). rewrite py_range_nth by lia. reflexivity.
Qed.

Lemma b2z_eqb : forall x, (b2z x =? 1) = x.
Proof. intros [|]; reflexivity. Qed.

Lemma be_binary : forall b, wf b -> be_number 2 (text_bits (bs_binary_string b)) = bv b.
Proof.
  intros b (Hw & Hv & _). rewrite text_binary.
  pose proof (map_b2z_length b Hw) as Hlen.
  apply (bits_ext _ _ (bw b)); auto.
  - pose proof (be_bound (rev (map (fun i => b2z (bit b i)) (py_range (bw b))))) as H.
    rewrite rev_length, Hlen, Z2Nat.id in H by lia. apply H. apply Forall_rev, b2z_range.
  - intros i Hi. rewrite <- (Z2Nat.id i) by lia. rewrite testbit_be.
    + rewrite rev_length, Hlen. rewrite rev_nth by lia.
      rewrite Hlen. replace (Z.to_nat (bw b) - S (Z.to_nat (bw b) - 1 - Z.to_nat i))%nat with (Z.to_nat i) by lia.
      rewrite map_b2z_nth by lia. apply b2z_eqb.
    + apply Forall_rev, b2z_range.
    + rewrite rev_length, Hlen. lia.
Qed.

Lemma binary_round : forall b, wf b -> 1 <= bw b -> bs_init (VStr (bs_binary_string b)) None = Ok b.
Proof.
  intros b Hb H. pose proof Hb as (Hw & Hv & Hm).
  rewrite init_text by (apply binary_bin_text; lia).
  rewrite be_binary, binary_length by (auto; lia). f_equal.
  destruct b; simpl in *; subst; reflexivity.
Qed.

Lemma nth_text_bits : forall l k, (k < List.length l)%nat ->
  nth k (map bit_of_char l) 0 = bit_of_char (nth k l "0"%char).
Proof.
  intros l k H. change 0 with (bit_of_char "0"%char). apply map_nth.
Qed.

Lemma binary_of_text : forall s b, bin_text s -> bs_init (VStr s) None = Ok b -> bs_binary_string b = s.
Proof.
  intros s b H E. rewrite init_text in E by auto. inversion E; subst b; clear E.
  set (b := mkbs _ _ _). apply string_ext. rewrite binary_chars.
  assert (Hlen : bw b = Z.of_nat (List.length (chars s))).
  { unfold b; simpl. unfold strlen. now rewrite chars_length. }
  apply nth_ext with (d := bitc (bit b 0)) (d' := "0"%char).
  - rewrite rev_length, map_length. unfold py_range. rewrite map_length, seq_length. lia.
  - rewrite rev_length, map_length. unfold py_range at 1. rewrite map_length, seq_length.
    intros n Hn. rewrite rev_nth by (rewrite map_length; unfold py_range; rewrite map_length, seq_length; lia).
    rewrite (map_nth (fun i => bitc (bit b i))).
    rewrite py_range_nth by (rewrite map_length; unfold py_range; rewrite map_length, seq_length; lia).
    rewrite map_length. unfold py_range. rewrite map_length, seq_length.
    unfold bit, b at 1; cbn [bv].
    rewrite testbit_be.
    + replace (List.length (text_bits s)) with (List.length (chars s)) by (unfold text_bits; now rewrite map_length).
      replace (List.length (chars s) - 1 - (Z.to_nat (bw b) - S n))%nat with n by lia.
      unfold text_bits. rewrite nth_text_bits by lia.
      destruct H as [_ H]. rewrite Forall_forall in H.
      destruct (H (nth n (chars s) "0"%char) ltac:(apply nth_In; lia)) as [->| ->]; reflexivity.
    + apply text_bits_range.
    + unfold text_bits. rewrite map_length. lia.
Qed.

(** ** Reversal *)
Lemma reversed_ok : forall b, wf b -> 1 <= bw b ->
  exists r, bs_reversed b = Ok r /\ wf r /\ bw r = bw b /\
    forall i, 0 <= i < bw b -> bit r i = bit b (bw b - 1 - i).
Proof.
  intros b Hb H. pose proof Hb as (Hw & Hv & Hm). unfold bs_reversed.
  set (s := of_chars _).
  assert (Hs : chars s = map (fun i => bitc (bit b i)) (py_range (bw b))).
  { unfold s. rewrite chars_of_chars, binary_chars. apply rev_involutive. }
  assert (Hlen : List.length (chars s) = Z.to_nat (bw b)).
  { rewrite Hs, map_length. unfold py_range. rewrite map_length, seq_length. reflexivity. }
  assert (Ht : bin_text s).
  { split.
    - intros E. rewrite E in Hlen. simpl in Hlen. lia.
    - rewrite Hs. apply Forall_forall. intros c Hc. apply in_map_iff in Hc.
      destruct Hc as (i & <- & _). apply bitc_bin. }
  unfold bs_init. cbn [bs_raw]. rewrite int_base2_ok by auto. cbn [bind].
  rewrite finish_ok by lia. eexists. split; [reflexivity|].
  split; [apply wf_bits; lia|]. split; [reflexivity|].
  intros i Hi. rewrite bit_bits by lia. destruct (Z.ltb_spec i (bw b)); [|lia]. cbn [andb].
  assert (Htb : text_bits s = map (fun i => b2z (bit b i)) (py_range (bw b))).
  { unfold text_bits. rewrite Hs, map_map. apply map_ext. intros. apply bit_of_bitc. }
  rewrite Htb. rewrite <- (Z2Nat.id i) at 1 by lia. rewrite testbit_be.
  - rewrite map_b2z_length by lia. rewrite map_b2z_nth by lia. rewrite b2z_eqb. f_equal. lia.
  - apply b2z_range.
  - rewrite map_b2z_length by lia. lia.
Qed.

Lemma reversed_empty : forall b, bw b = 0 -> bs_reversed b = Err ValueError.
Proof.
  intros [w v m] H; simpl in H; subst w. unfold bs_reversed.
  replace (bs_binary_string (mkbs 0 v m)) with EmptyString by reflexivity. reflexivity.
Qed.

Lemma reversed_twice : forall b r, wf b -> bs_reversed b = Ok r -> bs_reversed r = Ok b.
Proof.
  intros b r Hb E. pose proof Hb as (Hw & _).
  destruct (Z.eq_dec (bw b) 0) as [H0|H0].
  - rewrite reversed_empty in E by auto. discriminate.
  - destruct (reversed_ok b Hb ltac:(lia)) as (r1 & E1 & W1 & Wd1 & B1).
    rewrite E in E1; inversion E1; subst r1.
    destruct (reversed_ok r W1 ltac:(lia)) as (r2 & E2 & W2 & Wd2 & B2).
    rewrite E2. f_equal. apply wf_bit_ext; auto; [lia|].
    intros i Hi. rewrite B2 by lia. rewrite B1 by lia. f_equal. lia.
Qed.

(** ** Iteration and bytes *)
Lemma iter_ok : forall b, bs_iter b = map (fun i => b2z (bit b i)) (py_range (bw b)).
Proof.
  intros b. unfold bs_iter. apply map_ext_in. intros i H. apply py_range_in in H.
  rewrite land1_testbit by lia. reflexivity.
Qed.

Lemma bytes_nth : forall b i, 0 <= i < (bw b + 7) / 8 ->
  nth (Z.to_nat i) (bs_bytes b) 0 = (bv b / 256 ^ i) mod 256.
Proof.
  intros b i Hi. unfold bs_bytes.
  rewrite nth_indep with (d' := (fun i => Z.land (Z.shiftr (bv b) (i * 8)) 255) 0)
    by (rewrite map_length; unfold py_range; rewrite map_length, seq_length; lia).
  rewrite (map_nth (fun i => Z.land (Z.shiftr (bv b) (i * 8)) 255)).
  rewrite py_range_nth by lia. rewrite Z2Nat.id by lia.
  change 255 with (2 ^ 8 - 1). rewrite land_mask by lia.
  rewrite Z.shiftr_div_pow2 by lia. change 256 with (2 ^ 8). rewrite <- Z.pow_mul_r by lia.
  do 3 f_equal. lia.
Qed.

Lemma bytes_length : forall b, 0 <= bw b -> Z.of_nat (List.length (bs_bytes b)) = (bw b + 7) / 8.
Proof.
  intros b H. unfold bs_bytes. rewrite map_length.
  apply py_range_length. apply Z.div_pos; lia.
Qed.

Lemma le_number_app : forall l1 l2,
  le_number (l1 ++ l2) = le_number l1 + 256 ^ Z.of_nat (List.length l1) * le_number l2.
Proof.
  induction l1 as [|x l1 IH]; intros l2.
  - cbn [app le_number List.length Z.of_nat]. change (256 ^ 0) with 1. lia.
  - cbn [app le_number List.length]. rewrite IH. rewrite Nat2Z.inj_succ, Z.pow_succ_r by lia. ring.
Qed.

Lemma le_bytes_prefix : forall v n, 0 <= v ->
  le_number (map (fun i => Z.land (Z.shiftr v (i * 8)) 255) (map Z.of_nat (seq 0 n))) = v mod 256 ^ Z.of_nat n.
Proof.
  intros v n Hv. induction n as [|n IH].
  - cbn [seq map le_number Z.of_nat]. change (256 ^ 0) with 1. rewrite Z.mod_1_r. reflexivity.
  - rewrite seq_S, !map_app, le_number_app, IH. rewrite !map_length, seq_length.
    cbn [map le_number Nat.add].
    change 255 with (2 ^ 8 - 1). rewrite land_mask by lia. rewrite Z.shiftr_div_pow2 by lia.
    rewrite Nat2Z.inj_succ, Z.pow_succ_r by lia.
    replace (2 ^ (Z.of_nat n * 8)) with (256 ^ Z.of_nat n)
      by (change 256 with (2 ^ 8); rewrite <- Z.pow_mul_r by lia; f_equal; lia).
    change (2 ^ 8) with 256.
    rewrite (Z.mul_comm 256 (256 ^ Z.of_nat n)). assert (0 < 256 ^ Z.of_nat n) by (apply Z.pow_pos_nonneg; lia).
    rewrite Z.rem_mul_r by lia. ring.
Qed.

Lemma bytes_le : forall b, wf b -> le_number (bs_bytes b) = bv b.
Proof.
  intros b (Hw & Hv & _). unfold bs_bytes, py_range. rewrite le_bytes_prefix by lia.
  apply Z.mod_small. split; [lia|]. eapply Z.lt_le_trans; [apply Hv|].
  change 256 with (2 ^ 8). rewrite <- Z.pow_mul_r by lia.
  apply Z.pow_le_mono_r; [lia|].
  pose proof (Z.div_mod (bw b + 7) 8 ltac:(lia)). pose proof (Z.mod_pos_bound (bw b + 7) 8 ltac:(lia)).
  rewrite Z2Nat.id by (apply Z.div_pos; lia). lia.
Qed.

Lemma bytes_range : forall b, Forall (fun x => 0 <= x < 256) (bs_bytes b).
Proof.
  intros b. unfold bs_bytes. apply Forall_forall. intros x Hx. apply in_map_iff in Hx. destruct Hx as (i & <- & _).
  change 255 with (2 ^ 8 - 1). rewrite land_mask by lia. apply Z.mod_pos_bound. reflexivity.
Qed.

Lemma le_number_range : forall l, Forall (fun x => 0 <= x < 256) l ->
  0 <= le_number l < 256 ^ Z.of_nat (List.length l).
Proof.
  induction l as [|x l IH]; intros H.
  - cbn. lia.
  - inversion H as [|? ? Hx Hl]; subst. specialize (IH Hl). cbn [le_number List.length].
    rewrite Nat2Z.inj_succ, Z.pow_succ_r by lia. lia.
Qed.

Lemma lor_shift_plus : forall a b n, 0 <= n -> 0 <= a < 2 ^ n -> 0 <= b -> Z.lor a (Z.shiftl b n) = a + 2 ^ n * b.
Proof.
  intros a b n Hn Ha Hb. rewrite Z.shiftl_mul_pow2 by lia. rewrite (Z.mul_comm b).
  rewrite <- Z.lxor_lor, <- Z.add_nocarry_lxor; [reflexivity| |];
  apply Z.bits_inj'; intros k Hk; rewrite Z.land_spec, Z.bits_0, Z.mul_comm, Z.mul_pow2_bits by lia;
  (destruct (Z_lt_le_dec k n) as [L|L];
   [rewrite (Z.testbit_neg_r b) by lia; apply andb_false_r|];
   destruct (Z.eq_dec a 0) as [->|Z0]; [now rewrite Z.bits_0|];
   rewrite (Z.bits_above_log2 a k); [reflexivity|lia|];
   assert (Z.log2 a < n) by (apply Z.log2_lt_pow2; lia); lia).
Qed.

Lemma or_bytes_snoc : forall l x,
  or_bytes (l ++ [x]) = Z.lor (or_bytes l) (Z.shiftl x (Z.of_nat (List.length l) * 8)).
Proof.
  intros l x. unfold or_bytes, py_range. rewrite !Nat2Z.id, app_length. cbn [List.length].
  rewrite Nat.add_1_r, seq_S, map_app.
  assert (C : forall (l1 l2 : list Z) a b, List.length l1 = List.length l2 ->
    combine (l1 ++ [a]) (l2 ++ [b]) = (combine l1 l2 ++ [(a, b)])%list).
  { induction l1 as [|u l1 IH]; intros [|v l2] a b E; try discriminate; [reflexivity|].
    cbn. rewrite IH by (cbn in E; lia). reflexivity. }
  cbn [map Nat.add]. rewrite C by (rewrite map_length, seq_length; reflexivity).
  rewrite fold_left_app. reflexivity.
Qed.

Lemma or_bytes_le : forall l, Forall (fun x => 0 <= x < 256) l -> or_bytes l = le_number l.
Proof.
  intros l. induction l as [|x l IH] using rev_ind; intros H; [reflexivity|].
  apply Forall_app in H. destruct H as [Hl Hx]. inversion Hx as [|? ? Hx' _]; subst.
  rewrite or_bytes_snoc, IH, le_number_app by exact Hl. pose proof (le_number_range l Hl) as R.
  assert (P : 256 ^ Z.of_nat (List.length l) = 2 ^ (Z.of_nat (List.length l) * 8)).
  { change 256 with (2 ^ 8). rewrite <- Z.pow_mul_r by lia. f_equal. lia. }
  rewrite lor_shift_plus; [|lia|rewrite <- P; exact R|lia].
  rewrite P. cbn [le_number]. rewrite Z.mul_0_r, Z.add_0_r. reflexivity.
Qed.

(** ** Digits *)
Lemma digit_char_spec : forall d, 0 <= d < 16 ->
  char_digit (digit_char d) = d /\ (digit_char d = "0"%char <-> d = 0).
Proof.
  intros d Hd.
  assert (d = 0 \/ d = 1 \/ d = 2 \/ d = 3 \/ d = 4 \/ d = 5 \/ d = 6 \/ d = 7 \/ d = 8 \/ d = 9 \/
          d = 10 \/ d = 11 \/ d = 12 \/ d = 13 \/ d = 14 \/ d = 15) as H by lia.
  repeat (destruct H as [->|H]; [split; [reflexivity|split; [intros E; vm_compute in E; congruence|intros E; vm_compute; congruence]]|]).
  subst; split; [reflexivity|split; [intros E; vm_compute in E; congruence|intros; lia]].
Qed.

Lemma number_snoc : forall base l d, be_number base (l ++ [d]) = be_number base l * base + d.
Proof. intros. unfold be_number. rewrite number_app. reflexivity. Qed.

Lemma digits_loop_ok : forall b, 2 <= b <= 16 -> forall fuel n acc,
  (0 < fuel)%nat -> 0 <= n < b ^ Z.of_nat fuel ->
  exists ds, chars (digits_loop fuel b n acc) = (ds ++ chars acc)%list /\
    Forall (is_base_digit b) ds /\ be_number b (map char_digit ds) = n /\
    (n = 0 -> ds = ["0"%char]) /\ (n <> 0 -> exists c t, ds = c :: t /\ c <> "0"%char).
Proof.
  intros b Hb. induction fuel as [|f IH]; intros n acc Hf Hn; [lia|].
  cbn [digits_loop]. pose proof (Z.mod_pos_bound n b ltac:(lia)) as Hm.
  pose proof (Z.div_mod n b ltac:(lia)) as Hdm.
  destruct (digit_char_spec (n mod b) ltac:(lia)) as [Hc Hc0].
  destruct (Z.eqb_spec (n / b) 0) as [E|E].
  - exists [digit_char (n mod b)]. split; [reflexivity|]. split.
    + constructor; [|constructor]. unfold is_base_digit. rewrite Hc. lia.
    + split; [|split].
      * cbn [map]. rewrite Hc. unfold be_number. cbn [number]. lia.
      * intros ->. reflexivity.
      * intros Hn0. do 2 eexists. split; [reflexivity|]. rewrite Hc0. lia.
  - assert (Hq : 0 < n / b) by (pose proof (Z.div_pos n b ltac:(lia) ltac:(lia)); lia).
    rewrite Nat2Z.inj_succ, Z.pow_succ_r in Hn by lia.
    assert (Hq2 : n / b < b ^ Z.of_nat f) by (apply Z.div_lt_upper_bound; lia).
    destruct (Nat.eq_dec f 0) as [->|Hf0].
    { change (b ^ Z.of_nat 0) with 1 in Hq2. lia. }
    destruct (IH (n / b) (String (digit_char (n mod b)) acc) ltac:(lia) ltac:(lia))
      as (ds & E1 & F & B & _ & N).
    exists (ds ++ [digit_char (n mod b)])%list. split; [|split; [|split; [|split]]].
    + rewrite E1. rewrite <- app_assoc. reflexivity.
    + apply Forall_app. split; auto. constructor; [|constructor]. unfold is_base_digit. rewrite Hc. lia.
    + rewrite map_app. cbn [map]. rewrite number_snoc, B, Hc. lia.
    + intros ->. rewrite Z.div_0_l in E by lia. lia.
    + intros _. destruct (N E) as (c & t & -> & Hne). exists c, (t ++ [digit_char (n mod b)])%list.
      split; [reflexivity|auto].
Qed.

Lemma digits_canonical : forall b n, 2 <= b <= 16 -> 0 <= n -> canonical b (digits b n) n.
Proof.
  intros b n Hb Hn. unfold digits.
  destruct (digits_loop_ok b Hb (S (Z.to_nat (Z.log2 n))) n EmptyString ltac:(lia)) as (ds & E & F & B & Z0 & N).
  - split; [lia|]. destruct (Z.eq_dec n 0) as [->|H].
    + cbn. lia.
    + pose proof (Z.log2_spec n ltac:(lia)) as Hl. pose proof (Z.log2_nonneg n).
      rewrite Nat2Z.inj_succ, Z2Nat.id by lia.
      eapply Z.lt_le_trans; [apply Hl|]. apply Z.pow_le_mono_l. lia.
  - rewrite app_nil_r in E. unfold canonical, denotes. rewrite E. split; [auto|]. split.
    + intros H. apply string_ext. rewrite E. now apply Z0.
    + intros H. destruct (N H) as (c & t & -> & Hc).
      exists c, (of_chars t). split; auto. apply string_ext. rewrite E. simpl. now rewrite chars_of_chars.
Qed.

Lemma fmt_d_canonical : forall n, 0 <= n -> canonical 10 (fmt_d n) n.
Proof.
  intros n H. unfold fmt_d, fmt_base. destruct (Z.ltb_spec n 0); [lia|]. now apply digits_canonical; [lia|].
Qed.
Lemma fmt_x_canonical : forall n, 0 <= n -> canonical 16 (fmt_x n) n.
Proof.
  intros n H. unfold fmt_x, fmt_base. destruct (Z.ltb_spec n 0); [lia|]. now apply digits_canonical; [lia|].
Qed.
Lemma fmt_d_neg : forall n, n < 0 -> exists s, fmt_d n = String "-" s /\ canonical 10 s (- n).
Proof.
  intros n H. unfold fmt_d, fmt_base. destruct (Z.ltb_spec n 0); [|lia].
  eexists; split; [reflexivity|]. apply digits_canonical; lia.
Qed.
Lemma fmt_x_neg : forall n, n < 0 -> exists s, fmt_x n = String "-" s /\ canonical 16 s (- n).
Proof.
  intros n H. unfold fmt_x, fmt_base. destruct (Z.ltb_spec n 0); [|lia].
  eexists; split; [reflexivity|]. apply digits_canonical; lia.
Qed.

(** Number of digits. *)
Lemma number_lower : forall b l acc, 2 <= b -> Forall (fun d => 0 <= d) l -> 0 <= acc ->
  acc * b ^ Z.of_nat (List.length l) <= number b l acc.
Proof.
  induction l as [|d l IH]; intros acc Hb H Ha.
  - cbn [number List.length Z.of_nat]. rewrite Z.pow_0_r. lia.
  - inversion H as [|? ? Hd Hl]; subst. cbn [number List.length].
    rewrite Nat2Z.inj_succ, Z.pow_succ_r by lia.
    specialize (IH (acc * b + d) Hb Hl ltac:(nia)).
    assert (0 <= b ^ Z.of_nat (List.length l)) by (apply Z.pow_nonneg; lia). nia.
Qed.

Lemma canonical_length : forall b s n w, 2 <= b -> canonical b s n -> 1 <= w -> n < b ^ w ->
  1 <= strlen s <= w.
Proof.
  intros b s n w Hb ((HF & HV) & H0 & H1) Hw Hn.
  destruct (Z.eq_dec n 0) as [E|E].
  - rewrite (H0 E). cbn. lia.
  - destruct (H1 E) as (c & t & -> & Hc). unfold strlen. cbn [String.length].
    split; [lia|]. rewrite Nat2Z.inj_succ. cbn [chars map] in *.
    inversion HF as [|? ? Hd Ht]; subst x l.
    unfold be_number in HV. cbn [number] in HV.
    pose proof (number_lower b (map char_digit (chars t)) (0 * b + char_digit c) Hb) as HL.
    rewrite map_length, chars_length in HL.
    assert (Hcd : 1 <= char_digit c).
    { destruct Hd as [Hd _]. destruct (Z.eq_dec (char_digit c) 0) as [Hz|Hz]; [|lia].
      exfalso. apply Hc. unfold char_digit in Hz.
      destruct (Z.ltb_spec (Z.of_nat (nat_of_ascii c)) 58).
      - assert (nat_of_ascii c = 48%nat) as En by lia. rewrite <- (ascii_nat_embedding c), En. reflexivity.
      - destruct (Z.ltb_spec (Z.of_nat (nat_of_ascii c)) 97); lia. }
    assert (HFt : Forall (fun d => 0 <= d) (map char_digit (chars t))).
    { rewrite Forall_map. eapply Forall_impl; [|exact Ht]. unfold is_base_digit. intros; lia. }
    specialize (HL HFt ltac:(lia)).
    destruct (Z.lt_ge_cases (Z.of_nat (String.length t)) w); [lia|exfalso].
    assert (b ^ w <= b ^ Z.of_nat (String.length t)) by (apply Z.pow_le_mono_r; lia).
    assert (0 < b ^ w) by (apply Z.pow_pos_nonneg; lia). nia.
Qed.

Lemma repeat_char_length : forall c n, String.length (repeat_char c n) = n.
Proof. induction n; simpl; congruence. Qed.
Lemma repeat_char_chars : forall c n, chars (repeat_char c n) = repeat c n.
Proof. induction n; simpl; congruence. Qed.
Lemma number_zeros : forall b n l acc, acc = 0 ->
  number b (map char_digit (repeat "0"%char n) ++ l) acc = number b l 0.
Proof. induction n; intros l acc ->; simpl; auto. Qed.
Lemma string_length_app : forall s t, String.length (s ++ t) = (String.length s + String.length t)%nat.
Proof. induction s; simpl; intros; auto. Qed.

Lemma fmt_0x_denotes : forall w n, 0 <= n -> denotes 16 (fmt_0x w n) n.
Proof.
  intros w n Hn. unfold fmt_0x, denotes. destruct (fmt_x_canonical n Hn) as ((HF & HV) & _).
  rewrite chars_app, repeat_char_chars. split.
  - apply Forall_app. split; auto. apply Forall_forall. intros c Hc. apply repeat_spec in Hc. subst c.
    unfold is_base_digit. change (char_digit "0") with 0. lia.
  - rewrite map_app. unfold be_number in *. rewrite number_zeros by auto. exact HV.
Qed.

Lemma fmt_0x_length : forall w n, 1 <= w -> 0 <= n < 16 ^ w -> strlen (fmt_0x w n) = w.
Proof.
  intros w n Hw Hn. unfold fmt_0x.
  pose proof (canonical_length 16 (fmt_x n) n w ltac:(lia) (fmt_x_canonical n ltac:(lia)) Hw ltac:(lia)).
  unfold strlen in *. rewrite string_length_app, repeat_char_length. lia.
Qed.

(** Every digit string denotes one number, and canonical texts are unique. *)
Lemma denotes_fun : forall b s n m, denotes b s n -> denotes b s m -> n = m.
Proof. intros b s n m [_ <-] [_ <-]. reflexivity. Qed.
