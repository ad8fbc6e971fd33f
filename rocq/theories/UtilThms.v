(** * Properties C21-C22: utilities *)
From Verif Require Import BitstringModel SpecBits BitFacts BitOps BitText BitMisc UtilModel UtilFacts.
From Coq Require Import Lia ZifyBool.
(*@imports
From Verif Require Import BitstringModel SpecBits UtilModel UtilThms.
@*)

(*@doc C21: reading a halfword or a word at any offset inside a list of bytes. @*)
Lemma C21_read_proof : forall data off, 0 <= off -> Forall (fun b => 0 <= b < 256) data ->
  (off + 1 < Z.of_nat (List.length data) ->
   bytes_to_le16 data off = Ok (le_number (firstn 2 (skipn (Z.to_nat off) data)))) /\
  (off + 3 < Z.of_nat (List.length data) ->
   bytes_to_le32 data off = Ok (le_number (firstn 4 (skipn (Z.to_nat off) data)))).
Proof.
  intros data off H0 HF.
  assert (SK : forall k, (Z.to_nat off + k < List.length data)%nat ->
    skipn (Z.to_nat off + k) data =
    nth (Z.to_nat off + k) data 0 :: skipn (Z.to_nat off + k + 1) data).
  { intros k. generalize (Z.to_nat off + k)%nat as n. clear. induction data as [|a d IH]; intros n Hn; [cbn in Hn; lia|].
    destruct n as [|n]; [reflexivity|]. cbn [List.length] in Hn. cbn [skipn nth Nat.add]. apply IH. lia. }
  split; intros H.
  - rewrite bytes16_at by assumption. f_equal.
    assert (E0 := SK 0%nat ltac:(lia)). assert (E1 := SK 1%nat ltac:(lia)).
    rewrite Nat.add_0_r in E0. rewrite E0, E1. cbn [firstn le_number].
    replace (Z.to_nat (off + 1)) with (Z.to_nat off + 1)%nat by lia. lia.
  - rewrite bytes32_at by assumption. f_equal.
    assert (E0 := SK 0%nat ltac:(lia)). assert (E1 := SK 1%nat ltac:(lia)).
    assert (E2 := SK 2%nat ltac:(lia)). assert (E3 := SK 3%nat ltac:(lia)).
    rewrite Nat.add_0_r in E0.
    replace (Z.to_nat off + 1 + 1)%nat with (Z.to_nat off + 2)%nat in E1 by lia.
    replace (Z.to_nat off + 2 + 1)%nat with (Z.to_nat off + 3)%nat in E2 by lia.
    rewrite E0, E1, E2, E3. cbn [firstn le_number].
    replace (Z.to_nat (off + 1)) with (Z.to_nat off + 1)%nat by lia.
    replace (Z.to_nat (off + 2)) with (Z.to_nat off + 2)%nat by lia.
    replace (Z.to_nat (off + 3)) with (Z.to_nat off + 3)%nat by lia. lia.
Qed.
(*@ex
Example C21_read_ex : bytes_to_le16 [17; 34; 51; 68; 85] 1 = Ok 13090 /\ bytes_to_le32 [17; 34; 51; 68; 85] 1 = Ok 1430532898.
Proof. split; reflexivity. Qed.
@*)

(*@doc C21: a read that runs past the end raises. @*)
Lemma C21_short_proof : forall data off, 0 <= off ->
  (Z.of_nat (List.length data) <= off + 1 -> bytes_to_le16 data off = Err IndexError) /\
  (Z.of_nat (List.length data) <= off + 3 -> bytes_to_le32 data off = Err IndexError).
Proof.
  intros data off H0.
  assert (D : forall i, (exists x, py_nth data i = Ok x) \/ py_nth data i = Err IndexError).
  { intros i. unfold py_nth. destruct (_ || _); [right; reflexivity|].
    destruct (nth_error data _); [left; eauto|right; reflexivity]. }
  split; intros H; unfold bytes_to_le16, bytes_to_le32.
  - destruct (D off) as [[x ->] | -> ]; cbn [bind]; [|reflexivity]. rewrite py_nth_high by lia. reflexivity.
  - destruct (D off) as [[x ->] | -> ]; cbn [bind]; [|reflexivity].
    destruct (D (off + 1)) as [[y ->] | -> ]; cbn [bind]; [|reflexivity].
    destruct (D (off + 2)) as [[z ->] | -> ]; cbn [bind]; [|reflexivity].
    rewrite py_nth_high by lia. reflexivity.
Qed.
(*@ex
Example C21_short_ex : bytes_to_le16 [1] 0 = Err IndexError /\ bytes_to_le32 [1; 2; 3; 4] 2 = Err IndexError.
Proof. split; reflexivity. Qed.
@*)

(*@doc C21: value to bytes and back, for every integer. @*)
Lemma C21_value_round_proof : forall v,
  bytes_to_le16 (le16_to_bytes v) 0 = Ok (v mod 2 ^ 16) /\
  bytes_to_le32 (le32_to_bytes v) 0 = Ok (v mod 2 ^ 32).
Proof.
  intros v. assert (B : forall x, is_byte (x mod 256)) by (intros x; apply Z.mod_pos_bound; lia).
  split.
  - rewrite le16_to_bytes_eq, bytes16_at; [|lia|cbn; lia|repeat constructor; apply B].
    change (2 ^ 16) with 65536. rewrite split16. reflexivity.
  - rewrite le32_to_bytes_eq, bytes32_at; [|lia|cbn; lia|repeat constructor; apply B].
    rewrite split32. reflexivity.
Qed.
(*@ex
Example C21_value_round_ex : le32_to_bytes 305419896 = [120; 86; 52; 18] /\ bytes_to_le32 [120; 86; 52; 18] 0 = Ok 305419896.
Proof. split; reflexivity. Qed.
@*)

(*@doc C21: bytes to value and back. @*)
Lemma C21_bytes_round_proof : forall a b c d, 0 <= a < 256 -> 0 <= b < 256 -> 0 <= c < 256 -> 0 <= d < 256 ->
  (exists v, bytes_to_le16 [a; b] 0 = Ok v /\ 0 <= v < 2 ^ 16 /\ le16_to_bytes v = [a; b]) /\
  (exists v, bytes_to_le32 [a; b; c; d] 0 = Ok v /\ 0 <= v < 2 ^ 32 /\ le32_to_bytes v = [a; b; c; d]).
Proof.
  intros a b c d Ha Hb Hc Hd. split.
  - exists (a + 256 * b). split; [|split; [lia|]].
    + rewrite bytes16_at; [reflexivity|lia|cbn; lia|repeat (apply Forall_cons; [assumption|]); apply Forall_nil].
    + rewrite le16_to_bytes_eq.
      replace ((a + 256 * b) mod 256) with a by (apply Z.mod_unique with b; lia).
      replace ((a + 256 * b) / 256) with b by (apply Z.div_unique with a; lia).
      rewrite Z.mod_small by lia. reflexivity.
  - exists (a + 256 * b + 65536 * c + 16777216 * d). split; [|split; [lia|]].
    + rewrite bytes32_at; [reflexivity|lia|cbn; lia|repeat (apply Forall_cons; [assumption|]); apply Forall_nil].
    + rewrite le32_to_bytes_eq. set (v := a + 256 * b + 65536 * c + 16777216 * d).
      replace (v mod 256) with a by (apply Z.mod_unique with (b + 256 * c + 65536 * d); lia).
      replace (v / 256) with (b + 256 * c + 65536 * d) by (apply Z.div_unique with a; lia).
      replace (v / 65536) with (c + 256 * d) by (apply Z.div_unique with (a + 256 * b); lia).
      replace (v / 16777216) with d by (apply Z.div_unique with (a + 256 * b + 65536 * c); lia).
      replace ((b + 256 * c + 65536 * d) mod 256) with b by (apply Z.mod_unique with (c + 256 * d); lia).
      replace ((c + 256 * d) mod 256) with c by (apply Z.mod_unique with d; lia).
      rewrite (Z.mod_small d) by lia. reflexivity.
Qed.
(*@ex
Example C21_bytes_round_ex : bytes_to_le16 [52; 18] 0 = Ok 4660 /\ le16_to_bytes 4660 = [52; 18].
Proof. split; reflexivity. Qed.
@*)

(*@doc C21, list converters, 16 bits: units to bytes and back. @*)
Lemma C21_list16_units_proof : forall l, Forall (fun v => 0 <= v < 2 ^ 16) l ->
  byteListToU16leList (u16leListToByteList l) = Ok l.
Proof.
  induction l as [|v l IH]; intros HF; [reflexivity|].
  inversion HF as [|? ? Hv Hl]; subst. unfold u16leListToByteList. cbn [flat_map app].
  rewrite u16_step. change (flat_map _ l) with (u16leListToByteList l). rewrite IH by exact Hl. cbn [bind].
  do 2 f_equal. rewrite land_255, byte_of by lia. rewrite le16_val by (apply Z.mod_pos_bound; lia).
  change (2 ^ 8) with 256. rewrite <- split16. apply Z.mod_small. exact Hv.
Qed.
(*@ex
Example C21_list16_units_ex : u16leListToByteList [4660; 65535] = [52; 18; 255; 255].
Proof. reflexivity. Qed.
@*)

(*@doc C21, list converters, 16 bits: bytes to units and back on lists of whole
units; an odd list raises. @*)
Lemma C21_list16_bytes_proof : forall l, Forall (fun b => 0 <= b < 256) l ->
  (Z.even (Z.of_nat (List.length l)) = true ->
   exists u, byteListToU16leList l = Ok u /\ Forall (fun v => 0 <= v < 2 ^ 16) u /\ u16leListToByteList u = l) /\
  (Z.even (Z.of_nat (List.length l)) = false -> byteListToU16leList l = Err IndexError).
Proof.
  intros l. induction l as [| a | a b t IH] using list_ind2; intros HF.
  - split; [|discriminate]. intros _. exists []. split; [reflexivity|]. split; [constructor|reflexivity].
  - split; [discriminate|reflexivity].
  - inversion HF as [|? ? Ha HF1]; subst. inversion HF1 as [|? ? Hb HF2]; subst.
    destruct (IH HF2) as [IHe IHo]. rewrite u16_step.
    assert (E : Z.even (Z.of_nat (List.length (a :: b :: t))) = Z.even (Z.of_nat (List.length t))).
    { cbn [List.length]. rewrite !Nat2Z.inj_succ, Z.even_succ_succ. reflexivity. }
    rewrite E. split; intros H.
    + destruct (IHe H) as (u & Eu & Hu & Ru). rewrite Eu. cbn [bind].
      eexists. split; [reflexivity|]. rewrite le16_val by exact Ha. split.
      * constructor; [lia|exact Hu].
      * unfold u16leListToByteList. cbn [flat_map app]. fold (u16leListToByteList u). rewrite Ru.
        rewrite land_255, byte_of by lia. change (2 ^ 8) with 256.
        replace ((a + 256 * b) mod 256) with a by (apply Z.mod_unique with b; lia).
        replace ((a + 256 * b) / 256) with b by (apply Z.div_unique with a; lia).
        rewrite Z.mod_small by lia. reflexivity.
    + rewrite (IHo H). reflexivity.
Qed.
(*@ex
Example C21_list16_bytes_ex : byteListToU16leList [52; 18; 255; 255] = Ok [4660; 65535] /\
  byteListToU16leList [52; 18; 255] = Err IndexError.
Proof. split; reflexivity. Qed.
@*)

(*@doc C21, list converters, 32 bits (Python 2): units to bytes and back. @*)
Lemma C21_list32_units_partial_proof : forall l, Forall (fun v => 0 <= v < 2 ^ 32) l ->
  byteListToU32leList Py2 (u32leListToByteList l) = Ok l.
Proof.
  induction l as [|v l IH]; intros HF; [reflexivity|].
  inversion HF as [|? ? Hv Hl]; subst. unfold u32leListToByteList. cbn [flat_map app].
  rewrite u32_step. change (flat_map _ l) with (u32leListToByteList l). rewrite IH by exact Hl. cbn [bind].
  do 2 f_equal. rewrite !byte_of by lia. rewrite le32_val by (apply Z.mod_pos_bound; lia).
  change (2 ^ 0) with 1. rewrite Z.div_1_r.
  change (2 ^ 8) with 256. change (2 ^ 16) with 65536. change (2 ^ 24) with 16777216.
  rewrite <- split32. apply Z.mod_small. exact Hv.
Qed.
(*@ex
Example C21_list32_units_ex : u32leListToByteList [305419896] = [120; 86; 52; 18] /\
  byteListToU32leList Py2 [120; 86; 52; 18] = Ok [305419896].
Proof. split; reflexivity. Qed.
@*)

(*@doc C21, list converters, 32 bits (Python 2): bytes to units; a trailing partial
unit is dropped. @*)
Lemma C21_list32_bytes_partial_proof : forall l, Forall (fun b => 0 <= b < 256) l ->
  exists u, byteListToU32leList Py2 l = Ok u /\ Forall (fun v => 0 <= v < 2 ^ 32) u /\
    u32leListToByteList u = firstn (4 * (List.length l / 4)) l.
Proof.
  intros l. induction l as [l Hl|a b c d t IH] using list_ind4; intros HF.
  - exists []. split; [|split; [constructor|]].
    + unfold byteListToU32leList. replace (Z.of_nat (List.length l) / 4) with 0
        by (symmetry; apply Z.div_small; lia). reflexivity.
    + rewrite Nat.div_small by exact Hl. reflexivity.
  - inversion HF as [|? ? Ha HF1]; subst. inversion HF1 as [|? ? Hb HF2]; subst.
    inversion HF2 as [|? ? Hc HF3]; subst. inversion HF3 as [|? ? Hd HF4]; subst.
    destruct (IH HF4) as (u & Eu & Hu & Ru). rewrite u32_step, Eu. cbn [bind].
    eexists. split; [reflexivity|]. rewrite le32_val by assumption. split.
    + constructor; [lia|exact Hu].
    + unfold u32leListToByteList. cbn [flat_map app]. fold (u32leListToByteList u). rewrite Ru.
      replace (List.length (a :: b :: c :: d :: t) / 4)%nat with (S (List.length t / 4)).
      2:{ cbn [List.length]. replace (S (S (S (S (List.length t))))) with (List.length t + 1 * 4)%nat by lia.
          rewrite Nat.div_add by lia. lia. }
      replace (4 * S (List.length t / 4))%nat with (S (S (S (S (4 * (List.length t / 4)))))) by lia.
      cbn [firstn]. rewrite !byte_of by lia.
      change (2 ^ 0) with 1. rewrite Z.div_1_r.
      change (2 ^ 8) with 256. change (2 ^ 16) with 65536. change (2 ^ 24) with 16777216.
      set (v := a + 256 * b + 65536 * c + 16777216 * d).
      replace (v mod 256) with a by (apply Z.mod_unique with (b + 256 * c + 65536 * d); lia).
      replace (v / 256) with (b + 256 * c + 65536 * d) by (apply Z.div_unique with a; lia).
      replace (v / 65536) with (c + 256 * d) by (apply Z.div_unique with (a + 256 * b); lia).
      replace (v / 16777216) with d by (apply Z.div_unique with (a + 256 * b + 65536 * c); lia).
      replace ((b + 256 * c + 65536 * d) mod 256) with b by (apply Z.mod_unique with (c + 256 * d); lia).
      replace ((c + 256 * d) mod 256) with c by (apply Z.mod_unique with d; lia).
      rewrite (Z.mod_small d) by lia. reflexivity.
Qed.
(*@ex
Example C21_list32_bytes_ex : byteListToU32leList Py2 [1; 0; 0; 0; 2; 0; 0; 0; 9] = Ok [1; 2].
Proof. reflexivity. Qed.
@*)

(*@doc C21 fails on Python 3 for the 32-bit list converter: [range] of a float. @*)
Lemma C21_list32_py3_refuted_proof : exists l, Forall (fun v => 0 <= v < 2 ^ 32) l /\
  byteListToU32leList Py3 (u32leListToByteList l) = Err TypeError.
Proof. exists [5]. split; [repeat constructor; lia|reflexivity]. Qed.

(*@doc C22: bitmask sets exactly the named bits. @*)
Lemma C22_bitmask_proof : forall args,
  let named := fun (a : mask_arg) i => match a with ATuple msb lsb => lsb <= i <= msb
                         | AList l => In i l | AInt n => i = n | AOther => False end in
  ((forall a i, In a args -> named a i -> 0 <= i) ->
   exists m, bitmask args = Ok m /\ 0 <= m /\
   forall i, 0 <= i -> (Z.testbit m i = true <-> exists a, In a args /\ named a i)) /\
  ((exists a i, In a args /\ named a i /\ i < 0) -> bitmask args = Err ValueError).
Proof.
  intros args named.
  assert (NP : forall a i, named a i <-> In i (mask_positions a)).
  { intros a i. destruct a as [msb lsb|l|n|]; [symmetry; apply tuple_positions|reflexivity| |reflexivity].
    cbn. split; [intros ->; left; reflexivity|intros [H|[]]; symmetry; exact H]. }
  split.
  - intros H. destruct (bitmask_ok_gen args 0) as (m & E & Hm & B); [|lia|].
    + intros a b Ha Hb. apply (H a b Ha). apply NP. exact Hb.
    + exists m. split; [exact E|]. split; [exact Hm|]. intros i Hi. rewrite B by exact Hi.
      rewrite Z.testbit_0_l. cbn [orb]. rewrite existsb_exists. split.
      * intros (a & Ha & X). exists a. split; [exact Ha|]. apply NP, existsb_eqb, X.
      * intros (a & Ha & X). exists a. split; [exact Ha|]. apply existsb_eqb, NP, X.
  - intros (a & i & Ha & Hi & Hn). apply (bitmask_bad_gen args 0 a i Ha); [apply NP; exact Hi|exact Hn].
Qed.
(*@ex
Example C22_bitmask_ex : bitmask [ATuple 23 17; AInt 1] = Ok 16646146 /\
  bitmask [AList [4; 0; 2]; ATuple 31 24] = Ok 4278190101 /\ bitmask [AInt (-1)] = Err ValueError.
Proof. repeat split. Qed.
@*)

(*@doc C22: bfx reads bits msb..lsb, for a field not starting at bit 0. @*)
Lemma C22_bfx_partial_proof : forall v msb lsb, 0 < lsb <= msb ->
  bfx v msb (Some lsb) = Ok ((v / 2 ^ lsb) mod 2 ^ (msb - lsb + 1)).
Proof.
  intros v msb lsb H. unfold bfx, or_default. replace (lsb =? 0) with false by lia.
  destruct (tuple_mask msb lsb ltac:(lia)) as (m & E & Hm & B). rewrite E. cbn [bind].
  unfold py_shr. replace (lsb <? 0) with false by lia. f_equal.
  apply Z.bits_inj'. intros i Hi. rewrite testbit_mod by lia.
  rewrite Z.shiftr_spec, Z.land_spec, B by lia.
  rewrite <- Z.shiftr_div_pow2, Z.shiftr_spec by lia.
  replace ((lsb <=? i + lsb) && (i + lsb <=? msb)) with (i <? msb - lsb + 1) by lia. apply andb_comm.
Qed.
(*@ex
Example C22_bfx_ex : bfx 43981 11 (Some 4) = Ok 188.
Proof. reflexivity. Qed.
@*)

(*@doc C22: without lsb, or with lsb 0, bfx reads the single bit msb. @*)
Lemma C22_bfx_bit_proof : forall v msb, 0 <= msb ->
  bfx v msb None = Ok (if Z.testbit v msb then 1 else 0) /\
  bfx v msb (Some 0) = Ok (if Z.testbit v msb then 1 else 0).
Proof.
  intros v msb H. assert (bfx v msb (Some 0) = bfx v msb None) as -> by reflexivity.
  assert (bfx v msb None = Ok (if Z.testbit v msb then 1 else 0)); [|split; assumption].
  unfold bfx, or_default.
  destruct (tuple_mask msb msb ltac:(lia)) as (m & E & Hm & B). rewrite E. cbn [bind].
  unfold py_shr. replace (msb <? 0) with false by lia. f_equal.
  apply Z.bits_inj'. intros i Hi. rewrite Z.shiftr_spec, Z.land_spec, B by lia.
  destruct (Z.eq_dec i 0) as [->|N].
  - rewrite Z.add_0_l. replace ((msb <=? msb) && (msb <=? msb)) with true by lia. rewrite andb_true_r.
    destruct (Z.testbit v msb); reflexivity.
  - replace ((msb <=? i + msb) && (i + msb <=? msb)) with false by lia. rewrite andb_false_r.
    destruct (Z.testbit v msb); [|symmetry; apply Z.testbit_0_l].
    symmetry. apply (testbit_small 1 1); lia.
Qed.
(*@ex
Example C22_bfx_bit_ex : bfx 8 3 None = Ok 1 /\ bfx 8 2 (Some 0) = Ok 0.
Proof. split; reflexivity. Qed.
@*)

(*@doc C22 fails for fields that start at bit 0: [lsb or msb] (utilities.py:142)
takes lsb = 0 for a missing argument. @*)
Lemma C22_bfx_refuted_proof : exists v msb, 0 <= msb /\
  bfx v msb (Some 0) <> Ok ((v / 2 ^ 0) mod 2 ^ (msb - 0 + 1)).
Proof. exists 255, 3. split; [lia|]. vm_compute. discriminate. Qed.

(*@doc C22: bfi replaces exactly bits msb..lsb by the low bits of the field (lsb = 0
or no lsb: exactly bit msb). @*)
Lemma C22_bfi_partial_proof : forall v f msb lsb,
  let low := match lsb with Some 0 | None => msb | Some l => l end in
  0 <= low ->
  exists r, bfi v f msb lsb = Ok r /\
    forall i, 0 <= i -> Z.testbit r i = if (low <=? i) && (i <=? msb) then Z.testbit f (i - low) else Z.testbit v i.
Proof.
  intros v f msb lsb low Hl. unfold bfi.
  assert (or_default lsb msb = low) as -> by (unfold or_default, low; destruct lsb as [[|p|p]|]; reflexivity).
  destruct (tuple_mask msb low Hl) as (m & E & Hm & B). rewrite E. cbn [bind].
  unfold py_shl. replace (low <? 0) with false by lia. cbn [bind]. eexists. split; [reflexivity|].
  intros i Hi. rewrite Z.lor_spec, !Z.land_spec, Z.lnot_spec, B by lia.
  destruct ((low <=? i) && (i <=? msb)) eqn:X; cbn [negb].
  - rewrite andb_false_r, andb_true_r. cbn [orb]. apply Z.shiftl_spec. lia.
  - rewrite andb_true_r, andb_false_r, orb_false_r. reflexivity.
Qed.
(*@ex
Example C22_bfi_ex : bfi 65535 5 7 (Some 4) = Ok 65375 /\ bfi 0 1 9 None = Ok 512.
Proof. split; reflexivity. Qed.
@*)

(*@doc C22 fails for bfi on fields that start at bit 0. @*)
Lemma C22_bfi_refuted_proof : exists v f msb r, bfi v f msb (Some 0) = Ok r /\
  exists i, 0 <= i <= msb /\ Z.testbit r i <> Z.testbit f i.
Proof. exists 0, 15, 3, 8. split; [reflexivity|]. exists 0. split; [lia|discriminate]. Qed.

(*@doc C22: bfx after bfi returns the field. @*)
Lemma C22_bfx_bfi_partial_proof : forall v f msb lsb, 0 < lsb <= msb -> 0 <= f < 2 ^ (msb - lsb + 1) ->
  exists r, bfi v f msb (Some lsb) = Ok r /\ bfx r msb (Some lsb) = Ok f.
Proof.
  intros v f msb lsb H Hf. destruct (C22_bfi_partial_proof v f msb (Some lsb)) as (r & E & B).
  { destruct lsb; lia. }
  exists r. split; [exact E|]. rewrite C22_bfx_partial_proof by exact H. f_equal.
  apply (bits_ext _ _ (msb - lsb + 1)); [apply Z.mod_pos_bound, pow2_pos; lia|exact Hf|].
  intros i Hi. rewrite testbit_mod by lia. replace (i <? msb - lsb + 1) with true by lia. cbn [andb].
  rewrite <- Z.shiftr_div_pow2, Z.shiftr_spec, B by lia.
  replace (match lsb with 0 => msb | _ => lsb end) with lsb by (destruct lsb; [lia|reflexivity|reflexivity]).
  replace ((lsb <=? i + lsb) && (i + lsb <=? msb)) with true by lia. f_equal. lia.
Qed.
(*@ex
Example C22_bfx_bfi_ex : exists r, bfi 12345 77 20 (Some 9) = Ok r /\ bfx r 20 (Some 9) = Ok 77.
Proof. eexists. split; [reflexivity|reflexivity]. Qed.
@*)

(*@doc C22: wmask, invert32 and hamming_weight. @*)
Lemma C22_wmask_proof : forall n, (0 <= n -> wmask n = Ok (2 ^ n - 1)) /\ (n < 0 -> wmask n = Err ValueError).
Proof.
  intros n. unfold wmask, py_shl. split; intros H.
  - replace (n <? 0) with false by lia. cbn [bind]. f_equal. apply shl1_ones. exact H.
  - replace (n <? 0) with true by lia. reflexivity.
Qed.
(*@ex
Example C22_wmask_ex : wmask 4 = Ok 15.
Proof. reflexivity. Qed.
@*)
Lemma C22_invert32_proof : forall v, invert32 v = 2 ^ 32 - 1 - v mod 2 ^ 32.
Proof.
  intros v. unfold invert32. pose proof (Z.mod_pos_bound v (2 ^ 32) ltac:(lia)) as B.
  rewrite <- (land_mask_lnot (v mod 2 ^ 32) 32) by lia.
  apply Z.bits_inj'. intros i Hi. change 4294967295 with (2 ^ 32 - 1).
  rewrite !Z.land_spec, !Z.lnot_spec by lia. rewrite testbit_mod by lia.
  destruct (i <? 32) eqn:E; [reflexivity|]. rewrite (testbit_small (2 ^ 32 - 1) 32) by lia. reflexivity.
Qed.
(*@ex
Example C22_invert32_ex : invert32 5 = 4294967290 /\ invert32 (-1) = 0.
Proof. split; reflexivity. Qed.
@*)
Lemma C22_hamming_proof : forall v w, 0 <= w -> 0 <= v < 2 ^ w ->
  hamming_weight v = Ok (ones_below (Z.to_nat w) v).
Proof. intros v w Hw Hv. apply count_loop_exact; assumption. Qed.
(*@ex
Example C22_hamming_ex : hamming_weight 61440 = Ok 4.
Proof. reflexivity. Qed.
@*)

(*@doc The two float converters always raise: [struct] is not imported. @*)
Lemma C22_float_raises_proof : forall v, u32BEToFloat32BE v = Err NameError /\ float32beToU32be v = Err NameError.
Proof. split; reflexivity. Qed.
