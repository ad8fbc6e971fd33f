(** * Proofs about the bitstring model *)
From Verif Require Import BitstringModel SpecBits.
From Coq Require Import Lia ZifyBool.

(** ** Arithmetic preliminaries *)
Lemma pow2_pos : forall w, 0 <= w -> 0 < 2 ^ w.
Proof. intros; apply Z.pow_pos_nonneg; lia. Qed.

Lemma shl1_ones : forall w, 0 <= w -> Z.shiftl 1 w - 1 = 2 ^ w - 1.
Proof. intros; rewrite Z.shiftl_mul_pow2 by lia; lia. Qed.

Lemma land_mask : forall v w, 0 <= w -> Z.land v (2 ^ w - 1) = v mod 2 ^ w.
Proof.
  intros v w Hw. rewrite <- Z.land_ones by lia. f_equal.
  rewrite Z.ones_equiv. lia.
Qed.

Lemma testbit_small : forall v w i, 0 <= v < 2 ^ w -> w <= i -> Z.testbit v i = false.
Proof.
  intros v w i Hv Hi.
  destruct (Z.eq_dec v 0) as [->|Hn]; [apply Z.testbit_0_l|].
  apply Z.bits_above_log2; [lia|].
  assert (Z.log2 v < w) by (apply Z.log2_lt_pow2; lia). lia.
Qed.

Lemma testbit_mod : forall v w i, 0 <= w -> 0 <= i ->
  Z.testbit (v mod 2 ^ w) i = (i <? w) && Z.testbit v i.
Proof.
  intros v w i Hw Hi. destruct (Z.ltb_spec i w).
  - rewrite Z.mod_pow2_bits_low by lia. reflexivity.
  - rewrite Z.mod_pow2_bits_high by lia. reflexivity.
Qed.

Lemma bits_ext : forall a b w, 0 <= a < 2 ^ w -> 0 <= b < 2 ^ w ->
  (forall i, 0 <= i < w -> Z.testbit a i = Z.testbit b i) -> a = b.
Proof.
  intros a b w Ha Hb H. apply Z.bits_inj'. intros i Hi.
  destruct (Z.lt_ge_cases i w).
  - apply H; lia.
  - rewrite !(testbit_small _ w) by (auto; lia). reflexivity.
Qed.

Lemma land1_testbit : forall v i, 0 <= i ->
  Z.land (Z.shiftr v i) 1 = if Z.testbit v i then 1 else 0.
Proof.
  intros v i Hi. change 1 with (Z.ones 1) at 1. rewrite Z.land_ones by lia.
  rewrite Z.testbit_eqb by lia. rewrite Z.shiftr_div_pow2 by lia.
  change (2 ^ 1) with 2.
  pose proof (Z.mod_pos_bound (v / 2 ^ i) 2 ltac:(lia)).
  destruct (Z.eqb_spec ((v / 2 ^ i) mod 2) 1); lia.
Qed.

Lemma land1_bit0 : forall v, Z.land v 1 = if Z.testbit v 0 then 1 else 0.
Proof. intros v. rewrite <- (land1_testbit v 0) by lia. rewrite Z.shiftr_0_r. reflexivity. Qed.

(** ** [wf] and [bits] *)
Lemma wf_bits : forall w v, 0 <= w -> wf (bits w v).
Proof.
  intros w v Hw. unfold wf, bits; simpl. pose proof (pow2_pos w Hw).
  pose proof (Z.mod_pos_bound v (2 ^ w) ltac:(lia)). lia.
Qed.

Lemma wf_eq_bits : forall b, wf b -> b = bits (bw b) (bv b).
Proof.
  intros [w v m] (Hw & Hv & Hm). simpl in *. unfold bits. subst m.
  rewrite Z.mod_small by lia. reflexivity.
Qed.

Lemma bits_small : forall w v, 0 <= v < 2 ^ w -> bits w v = mkbs w v (2 ^ w - 1).
Proof. intros; unfold bits. rewrite Z.mod_small by lia. reflexivity. Qed.

Lemma wf_ext : forall a b, wf a -> wf b -> bw a = bw b -> bv a = bv b -> a = b.
Proof. intros [w v m] [w' v' m'] (?&?&?) (?&?&?) E1 E2; simpl in *; subst; reflexivity. Qed.

Lemma wf_bit_ext : forall a b, wf a -> wf b -> bw a = bw b ->
  (forall i, 0 <= i < bw a -> bit a i = bit b i) -> a = b.
Proof.
  intros a b Ha Hb Hw H. apply wf_ext; auto.
  destruct Ha as (?&?&?), Hb as (?&?&?). rewrite <- Hw in *.
  apply (bits_ext _ _ (bw a)); auto.
Qed.

Lemma bit_above : forall b i, wf b -> bw b <= i -> bit b i = false.
Proof. intros b i (?&?&?) Hi. unfold bit. apply (testbit_small _ (bw b)); lia. Qed.

Lemma bits_mod_eq : forall w v, 0 <= w -> bits w (v mod 2 ^ w) = bits w v.
Proof. intros. unfold bits. rewrite Z.mod_mod by (pose proof (pow2_pos w); lia). reflexivity. Qed.

Lemma bit_bits : forall w v i, 0 <= w -> 0 <= i -> bit (bits w v) i = (i <? w) && Z.testbit v i.
Proof. intros. unfold bit, bits; simpl. apply testbit_mod; lia. Qed.

(** ** Construction *)
Lemma finish_ok : forall w v, 0 <= w -> bs_finish w v = Ok (bits w v).
Proof.
  intros w v Hw. unfold bs_finish, py_shl, bind, bits.
  destruct (Z.ltb_spec w 0); [lia|]. rewrite shl1_ones, land_mask by lia. reflexivity.
Qed.

Lemma finish_neg : forall w v, w < 0 -> bs_finish w v = Err ValueError.
Proof. intros w v Hw. unfold bs_finish, py_shl. destruct (Z.ltb_spec w 0); [reflexivity|lia]. Qed.

Lemma finish_inv : forall w v b, bs_finish w v = Ok b -> 0 <= w /\ b = bits w v.
Proof.
  intros w v b H. destruct (Z.lt_ge_cases w 0).
  - rewrite finish_neg in H by lia. discriminate.
  - rewrite finish_ok in H by lia. inversion H. auto.
Qed.

Lemma init_wf : forall v w b, bs_init v w = Ok b -> wf b.
Proof.
  intros v w b H. unfold bs_init in H.
  destruct (bs_raw v) as [[w0 v0]|e]; simpl in H; [|discriminate].
  apply finish_inv in H. destruct H as [Hw ->]. now apply wf_bits.
Qed.

Lemma init_int : forall z w, 0 <= w -> bs_init (VInt z) (Some w) = Ok (bits w z).
Proof. intros. unfold bs_init; simpl. now apply finish_ok. Qed.

Lemma init_int_neg : forall v w z0, w < 0 -> bs_raw v = Ok z0 -> bs_init v (Some w) = Err ValueError.
Proof. intros v w [a b] Hw H. unfold bs_init. rewrite H. simpl. now apply finish_neg. Qed.

Lemma init_copy : forall b, wf b -> bs_init (VBits b) None = Ok b.
Proof.
  intros b H. unfold bs_init; simpl. destruct H as (Hw & Hv & Hm).
  rewrite finish_ok by lia. f_equal. symmetry. apply wf_eq_bits. unfold wf; auto.
Qed.

Lemma init_none : bs_init VNone None = Ok (bits 0 0).
Proof. reflexivity. Qed.

(** ** Text *)
Lemma chars_of_chars : forall l, chars (of_chars l) = l.
Proof. induction l; simpl; congruence. Qed.
Lemma of_chars_chars : forall s, of_chars (chars s) = s.
Proof. induction s; simpl; congruence. Qed.
Lemma chars_length : forall s, List.length (chars s) = String.length s.
Proof. induction s; simpl; congruence. Qed.
Lemma chars_app : forall s t, chars (s ++ t) = (chars s ++ chars t)%list.
Proof. induction s; simpl; intros; congruence. Qed.
Lemma length_of_chars : forall l, String.length (of_chars l) = List.length l.
Proof. induction l; simpl; congruence. Qed.
Lemma string_ext : forall s t, chars s = chars t -> s = t.
Proof. intros s t H. rewrite <- (of_chars_chars s), <- (of_chars_chars t). now f_equal. Qed.

Lemma number_app : forall base l1 l2 acc, number base (l1 ++ l2) acc = number base l2 (number base l1 acc).
Proof. induction l1; simpl; intros; auto. Qed.

Lemma bin_char_not_ws : forall c, bin_char c -> is_ws c = false.
Proof. intros c [->| ->]; reflexivity. Qed.

Lemma drop_ws_bin : forall l, Forall bin_char l -> drop_ws l = l.
Proof. intros [|c l] H; simpl; auto. inversion H; subst. now rewrite bin_char_not_ws. Qed.

Lemma strip_ws_bin : forall l, Forall bin_char l -> strip_ws l = l.
Proof.
  intros l H. unfold strip_ws. rewrite (drop_ws_bin l H).
  rewrite drop_ws_bin by (now apply Forall_rev). apply rev_involutive.
Qed.

Lemma bin_digits_ok : forall l acc, Forall bin_char l ->
  bin_digits l acc = Some (number 2 (map bit_of_char l) acc).
Proof.
  induction l as [|c l IH]; intros acc H; cbn [bin_digits map number]; auto.
  inversion H as [|? ? Hc Hl]; subst.
  destruct Hc as [->| ->].
  - change (Ascii.eqb "0" "0") with true. cbv iota. rewrite IH by auto. do 2 f_equal.
    change (bit_of_char "0") with 0. lia.
  - change (Ascii.eqb "1" "0") with false. change (Ascii.eqb "1" "1") with true. cbv iota.
    rewrite IH by auto. do 2 f_equal. change (bit_of_char "1") with 1. lia.
Qed.

Lemma bin_unsigned_ok : forall l, l <> [] -> Forall bin_char l ->
  bin_unsigned l = Some (be_number 2 (map bit_of_char l)).
Proof.
  intros l Hne H. unfold bin_unsigned.
  assert (E : (match l with
           | a :: b :: l' =>
             if (Ascii.eqb a "0" && (Ascii.eqb b "b" || Ascii.eqb b "B"))%bool then l' else l
           | _ => l end) = l).
  { destruct l as [|a [|b l']]; auto.
    inversion H as [|? ? Ha Hl]; subst. inversion Hl as [|? ? Hb Hl']; subst.
    destruct Hb as [->| ->]; simpl; rewrite andb_false_r; reflexivity. }
  rewrite E. destruct l; [congruence|]. now apply bin_digits_ok.
Qed.

Lemma int_base2_ok : forall s, bin_text s -> int_base2 s = Ok (be_number 2 (text_bits s)).
Proof.
  intros s [Hne H]. unfold int_base2. rewrite strip_ws_bin by auto.
  assert (Hl : chars s <> []) by (destruct s; simpl; congruence).
  pose proof (bin_unsigned_ok _ Hl H) as E.
  unfold text_bits. destruct (chars s) as [|c l]; [congruence|].
  inversion H as [|? ? Hc ?]; subst.
  destruct Hc as [->| ->]; rewrite E; reflexivity.
Qed.

Lemma number_bound : forall l acc, Forall (fun d => 0 <= d <= 1) l -> 0 <= acc ->
  acc * 2 ^ Z.of_nat (List.length l) <= number 2 l acc < (acc + 1) * 2 ^ Z.of_nat (List.length l).
Proof.
  induction l as [|d l IH]; intros acc H Ha.
  - cbn [number List.length Z.of_nat]. change (2 ^ 0) with 1. lia.
  - inversion H as [|? ? Hd Hl]; subst. cbn [number List.length].
    rewrite Nat2Z.inj_succ, Z.pow_succ_r by lia.
    specialize (IH (acc * 2 + d) Hl ltac:(lia)).
    pose proof (pow2_pos (Z.of_nat (List.length l)) ltac:(lia)). nia.
Qed.

Lemma bit_of_char_range : forall c, 0 <= bit_of_char c <= 1.
Proof. intros c. unfold bit_of_char. destruct (Ascii.eqb c "1"); lia. Qed.

Lemma text_bits_range : forall s, Forall (fun d => 0 <= d <= 1) (text_bits s).
Proof. intros s. unfold text_bits. induction (chars s); simpl; constructor; auto. apply bit_of_char_range. Qed.

Lemma text_bits_length : forall s, Z.of_nat (List.length (text_bits s)) = strlen s.
Proof. intros. unfold text_bits, strlen. rewrite map_length, chars_length. reflexivity. Qed.

Lemma text_number_bound : forall s, 0 <= be_number 2 (text_bits s) < 2 ^ strlen s.
Proof.
  intros s. unfold be_number.
  pose proof (number_bound (text_bits s) 0 (text_bits_range s) ltac:(lia)) as H.
  rewrite text_bits_length in H. lia.
Qed.

Lemma init_text : forall s, bin_text s ->
  bs_init (VStr s) None = Ok (mkbs (strlen s) (be_number 2 (text_bits s)) (2 ^ strlen s - 1)).
Proof.
  intros s H. unfold bs_init; simpl. rewrite int_base2_ok by auto. simpl.
  rewrite finish_ok by (unfold strlen; lia). f_equal. apply bits_small, text_number_bound.
Qed.
