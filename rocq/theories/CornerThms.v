(** * Proofs of statements about the corner cases of bitstrings and helpers *)
From Coq Require Import Lia ZifyBool.
From Verif Require Import BitstringModel SpecBits SpecArm HelpersModel UtilModel DumpModel SpecApi SpecDump BitFacts BitOps BitText BitMisc HelpFacts UtilFacts ApiThms DumpThms.
(*@imports
From Verif Require Import BitstringModel SpecBits SpecArm HelpersModel UtilModel DumpModel SpecApi SpecDump CornerThms.
@*)

(*@doc C02: every operand on the left is first made a bitstring. @*)
Lemma C02_reflected_any_proof : forall b v,
  match bs_init v None with
  | Ok a =>
    bs_radd b v = bs_add a (VBits b) /\ bs_rsub b v = bs_sub a (VBits b) /\
    bs_rmul b v = bs_mul a (VBits b) /\ bs_rfloordiv b v = bs_floordiv a (VBits b) /\
    bs_rand b v = bs_and a (VBits b) /\ bs_ror b v = bs_or a (VBits b) /\
    bs_rxor b v = bs_xor a (VBits b) /\ bs_rmod b v = bs_mod a (VBits b)
  | Err e =>
    bs_radd b v = Err e /\ bs_rsub b v = Err e /\ bs_rmul b v = Err e /\ bs_rfloordiv b v = Err e /\
    bs_rand b v = Err e /\ bs_ror b v = Err e /\ bs_rxor b v = Err e /\ bs_rmod b v = Err e
  end.
Proof.
  intros b v. unfold bs_radd, bs_rsub, bs_rmul, bs_rfloordiv, bs_rand, bs_ror, bs_rxor, bs_rmod, bs_reflected.
  destruct (bs_init v None); cbn [bind]; repeat split.
Qed.
(*@ex
Example C02_reflected_any_ex : bs_rsub (bits 8 1) (VStr "1000") = Ok (bits 4 7) /\ bs_radd (bits 8 1) (VStr "12") = Err ValueError.
Proof. split; reflexivity. Qed.
@*)

(*@doc C05: the remaining ill-typed and out of range assignments. @*)
Lemma C05_errors_rest_proof : forall b, wf b ->
  (forall i l py, i < bw b -> bs_setitem b (KInt i) (VSeq l) = Err TypeError /\ bs_setitem b (KInt i) (VBytearray py l) = Err TypeError) /\
  (forall i x, i < - bw b -> bw x = 1 -> bs_setitem b (KInt i) (VBits x) = Err ValueError) /\
  (forall s value, slice_bounds s (bw b) = None -> bs_setitem b (KSlice s) value = Err ValueError) /\
  (forall s start stop py l, slice_bounds s (bw b) = Some (start, stop, 1) -> bs_setitem b (KSlice s) (VBytearray py l) = Err TypeError) /\
  (forall s start stop t e, slice_bounds s (bw b) = Some (start, stop, 1) -> bs_init (VStr t) None = Err e ->
     bs_setitem b (KSlice s) (VStr t) = Err e) /\
  (forall s start stop t x, slice_bounds s (bw b) = Some (start, stop, 1) -> bs_init (VStr t) None = Ok x -> stop < start ->
     bs_setitem b (KSlice s) (VStr t) = Err ValueError).
Proof.
  intros b Hb. cbn [bs_setitem]. split; [|split; [|split; [|split; [|split]]]].
  - intros i l py H. split; apply setbit_badval; try exact H; reflexivity.
  - intros i x H X. pose proof Hb as (Hw & _). apply (setbit_low _ _ _ (bv x)); try assumption. cbn [bit_value]. rewrite X. reflexivity.
  - intros s value N. destruct (setslice_err b s value Hb) as (E1 & _). exact (E1 N).
  - intros s start stop py l S. destruct (setslice_err b s (VBytearray py l) Hb) as (_ & _ & E3 & _). exact (E3 start stop TypeError S eq_refl).
  - intros s start stop t e S E. destruct (setslice_err b s (VStr t) Hb) as (_ & _ & E3 & _). exact (E3 start stop e S E).
  - intros s start stop t x S E L. destruct (setslice_err b s (VStr t) Hb) as (_ & _ & _ & E4). exact (E4 start stop x S E L).
Qed.
(*@ex
Example C05_errors_rest_ex : bs_setitem (bits 8 0) (KSlice (mkslice None None (Some 0))) (VInt 1) = Err ValueError /\
  bs_setitem (bits 8 0) (KSlice (mkslice None None None)) (VStr "2") = Err ValueError /\
  bs_setitem (bits 8 0) (KInt 0) (VSeq [1]) = Err TypeError /\ bs_setitem (bits 8 0) (KInt (-9)) (VBits (bits 1 1)) = Err ValueError.
Proof. repeat split; reflexivity. Qed.
@*)

(*@doc C08: texts that are no binary numbers, and objects of less than two bits against
negative ints: their signed value reads as 0. @*)
Lemma C08_rest_proof : forall a,
  (forall s e, bs_init (VStr s) None = Err e ->
     bs_eq a (VStr s) = Err e /\ bs_ne a (VStr s) = Err e /\ bs_lt a (VStr s) = Err e /\
     bs_le a (VStr s) = Err e /\ bs_gt a (VStr s) = Err e /\ bs_ge a (VStr s) = Err e) /\
  (forall z, z < 0 -> bw a < 2 ->
     bs_eq a (VInt z) = Ok (a, false) /\ bs_ne a (VInt z) = Ok (a, true) /\ bs_lt a (VInt z) = Ok (a, false) /\
     bs_le a (VInt z) = Ok (a, false) /\ bs_gt a (VInt z) = Ok (a, true) /\ bs_ge a (VInt z) = Ok (a, true)).
Proof.
  intros a. unfold bs_gt, bs_ne, bs_ge, bs_le, bs_eq, bs_lt. split.
  - intros s e ->. cbn [bind]. repeat split.
  - intros z N W. assert (E : bs_signed a = Ok (a, 0)) by (unfold bs_signed; destruct (Z.ltb_spec (bw a) 2); [reflexivity|lia]).
    destruct (Z.ltb_spec z 0) as [_|]; [|lia]. rewrite E. cbn [bind].
    destruct (Z.eqb_spec 0 z); [lia|]. destruct (Z.ltb_spec 0 z); [lia|]. cbn [bind negb]. rewrite ?E. cbn [bind]. destruct (Z.ltb_spec 0 z); [lia|]. repeat split.
Qed.
(*@ex
Example C08_rest_ex : bs_ge (bits 1 1) (VInt (-1)) = Ok (bits 1 1, true) /\ bs_gt (bits 1 1) (VStr "x") = Err ValueError.
Proof. split; reflexivity. Qed.
@*)

(*@doc C08: what every comparison with a negative int leaves behind: the complement, if the
sign bit was set. @*)
Lemma C08_left_behind_proof : forall a z, wf a -> 2 <= bw a -> z < 0 ->
  let a' := if bv a <? 2 ^ (bw a - 1) then a else bits (bw a) (2 ^ bw a - 1 - bv a) in
  let t := twos (bw a) (bv a) in
  bs_eq a (VInt z) = Ok (a', t =? z) /\ bs_ne a (VInt z) = Ok (a', negb (t =? z)) /\
  bs_lt a (VInt z) = Ok (a', t <? z) /\ bs_ge a (VInt z) = Ok (a', z <=? t) /\
  bs_le a (VInt z) = Ok (a', t =? z) /\ bs_gt a (VInt z) = Ok (a', negb (t =? z)).
Proof.
  intros a z Ha H2 Hz a' t. destruct (signed_value a Ha H2) as (x & E & ->). fold a' t in E.
  assert (EQ : bs_eq a (VInt z) = Ok (a', t =? z)) by (unfold bs_eq; destruct (Z.ltb_spec z 0); [rewrite E; reflexivity|lia]).
  assert (LT : bs_lt a (VInt z) = Ok (a', t <? z)) by (unfold bs_lt; destruct (Z.ltb_spec z 0); [rewrite E; reflexivity|lia]).
  assert (LE : bs_le a (VInt z) = Ok (a', t =? z)).
  { unfold bs_le. rewrite EQ. cbn [bind]. destruct (Z.eqb_spec t z) as [Ez|Ez]; [reflexivity|].
    assert (P : 0 <= bv a' < 2 ^ (bw a' - 1) /\ wf a' /\ bw a' = bw a).
    { pose proof Ha as (Hw & Hv & Hm). assert (D : 2 ^ bw a = 2 * 2 ^ (bw a - 1)) by (rewrite <- (Z.pow_succ_r 2 (bw a - 1)) by lia; f_equal; lia).
      unfold a'. destruct (Z.ltb_spec (bv a) (2 ^ (bw a - 1))).
      - split; [lia|]. split; [exact Ha|reflexivity].
      - split; [|split; [apply wf_bits; lia|reflexivity]]. cbn [bits bv bw]. rewrite Z.mod_small by lia. lia. }
    destruct P as (P1 & P2 & P3). assert (S : bs_signed a' = Ok (a', bv a')).
    { destruct (signed_value a' P2 ltac:(lia)) as (y & E' & ->). rewrite E'. destruct (Z.ltb_spec (bv a') (2 ^ (bw a' - 1))); [|lia].
      f_equal. f_equal. unfold twos. destruct P2 as (_ & V & _). rewrite Z.mod_small by lia. destruct (Z.ltb_spec (bv a') (2 ^ (bw a' - 1))); lia. }
    unfold bs_lt. destruct (Z.ltb_spec z 0); [|lia]. rewrite S. cbn [bind]. f_equal. f_equal. lia. }
  split; [exact EQ|]. split; [unfold bs_ne; rewrite EQ; reflexivity|]. split; [exact LT|].
  split; [unfold bs_ge; rewrite LT; cbn [bind]; f_equal; f_equal; lia|]. split; [exact LE|].
  unfold bs_gt. rewrite LE. reflexivity.
Qed.
(*@ex
Example C08_left_behind_ex : bs_eq (bits 8 0xfb) (VInt (-5)) = Ok (bits 8 4, true).
Proof. reflexivity. Qed.
@*)

(*@doc C12: a list of ints that need not be 0 or 1: the numbers are added bit by bit, each shifted
by its distance from the end. @*)
Lemma C12_any_list_proof : forall l w, l <> [] ->
  (w = None \/ exists n, w = Some n /\ 0 <= n) ->
  exists r, bs_init (VSeq l) w = Ok r /\ wf r /\
    bw r = match w with Some n => n | None => Z.of_nat (List.length l) end /\
    forall i, 0 <= i < bw r ->
      bit r i = existsb (fun j => Z.testbit (nth j (rev l) 0) (i - Z.of_nat j)) (seq 0 (List.length l)).
Proof.
  assert (F : forall l x i, 0 <= i -> Z.testbit (fold_left (fun x y => Z.lor (Z.shiftl x 1) y) l x) i =
    existsb (fun j => Z.testbit (nth j (rev (x :: l)) 0) (i - Z.of_nat j)) (seq 0 (List.length (x :: l)))).
  { intros l. induction l as [|y l IH] using rev_ind; intros x i I.
    - cbn. replace (i - 0) with i by lia. rewrite orb_false_r. reflexivity.
    - rewrite fold_left_app. cbn [fold_left]. rewrite Z.lor_spec, Z.shiftl_spec by exact I.
      change (x :: l ++ [y]) with ((x :: l) ++ [y]). rewrite rev_app_distr, app_length. cbn [rev app List.length].
      replace (S (List.length l) + 1)%nat with (S (S (List.length l))) by lia.
      cbn [seq existsb nth]. replace (i - Z.of_nat 0) with i by lia. rewrite orb_comm. f_equal.
      destruct (Z.ltb_spec (i - 1) 0) as [K|K].
      + rewrite Z.testbit_neg_r by exact K. symmetry.
        change (1%nat :: seq 2 (List.length l)) with (seq 1 (S (List.length l))).
        rewrite <- not_true_iff_false. intros X. change (existsb (fun j => Z.testbit (nth j (y :: rev l ++ [x]) 0) (i - Z.of_nat j)) (seq 1 (S (List.length l))) = true) in X.
        apply existsb_exists in X. destruct X as (j & J & T). apply in_seq in J. rewrite Z.testbit_neg_r in T by lia. discriminate.
      + rewrite (IH x (i - 1) K). change (existsb (fun j => Z.testbit (nth j (rev (x :: l)) 0) (i - 1 - Z.of_nat j)) (seq 0 (S (List.length l))) =
          existsb (fun j => Z.testbit (nth j (y :: rev l ++ [x]) 0) (i - Z.of_nat j)) (seq 1 (S (List.length l)))).
        rewrite <- seq_shift. generalize (seq 0 (S (List.length l))) as q. intros q. induction q as [|k q IHq]; [reflexivity|].
        cbn [map existsb]. rewrite IHq. f_equal. cbn [nth rev]. f_equal. lia. }
  intros [|x l] w N W; [contradiction|]. clear N. set (v := fold_left (fun x y => Z.lor (Z.shiftl x 1) y) l x).
  set (n := match w with Some n => n | None => Z.of_nat (List.length (x :: l)) end).
  assert (P : 0 <= n) by (unfold n; destruct W as [->|(k & -> & K)]; lia).
  exists (bits n v). assert (E : bs_init (VSeq (x :: l)) w = Ok (bits n v)).
  { unfold bs_init. cbn [bs_raw reduce_bits bind]. fold v. rewrite <- (finish_ok n v P). reflexivity. }
  split; [exact E|]. split; [apply wf_bits; exact P|]. split; [reflexivity|].
  intros i I. cbn [bits bw] in I. rewrite bit_bits by lia. destruct (Z.ltb_spec i n); [|lia]. cbn [andb]. unfold v. apply F. lia.
Qed.
(*@ex
Example C12_any_list_ex : bs_init (VSeq [3; 0; 5]) None = Ok (bits 3 5) /\ bs_init (VSeq [3; 0; 5]) (Some 8) = Ok (bits 8 13).
Proof. split; reflexivity. Qed.
@*)

(*@doc C14: the operands that &, | and ^ reject. @*)
Lemma C14_rejects_proof : forall a,
  (forall v, v = VNone \/ v = VOther \/ (exists l, v = VSeq l) \/ (exists py l, v = VBytearray py l) ->
    bs_and a v = Err TypeError /\ bs_or a v = Err TypeError /\ bs_xor a v = Err TypeError) /\
  (forall s e, bs_init (VStr s) None = Err e ->
    bs_and a (VStr s) = Err e /\ bs_or a (VStr s) = Err e /\ bs_xor a (VStr s) = Err e).
Proof.
  intros a. unfold bs_and, bs_or, bs_xor. split.
  - intros v [->|[->|[[l ->]|[py [l ->]]]]]; repeat split.
  - intros s e E. cbn [bit_operand]. rewrite E. repeat split.
Qed.
(*@ex
Example C14_rejects_ex : bs_and (bits 8 3) (VSeq [1]) = Err TypeError /\ bs_or (bits 8 3) (VStr "2") = Err ValueError.
Proof. split; reflexivity. Qed.
@*)

(*@doc C15: the empty bitstring. @*)
Lemma C15_hex_empty_proof : bs_hex (bits 0 0) = "0'h0"%string.
Proof. reflexivity. Qed.

(*@doc C17: rotating by a negative amount rotates to the left. @*)
Lemma C17_negative_rotation_proof : forall x n c, wf x -> 1 <= bw x -> n < 0 ->
  let v := rotr (bw x) (bv x) (n mod bw x) in
  ROR_C x n = Ok (bits (bw x) v, bitv (Z.testbit v (bw x - 1))) /\ ROR x n = Ok (bits (bw x) v) /\
  Shift_C x SR_ROR n c = Ok (bits (bw x) v, bitv (Z.testbit v (bw x - 1))).
Proof.
  intros x n c Hx W N v. assert (V : rotr (bw x) (bv x) n = v).
  { pose proof Hx as (_ & B & _). unfold v, rotr. rewrite Z.mod_mod by lia. reflexivity. }
  assert (R : ROR_C x n = Ok (bits (bw x) v, bitv (Z.testbit v (bw x - 1)))) by (rewrite (ROR_C_ok x n Hx W ltac:(lia)), V; reflexivity).
  split; [exact R|]. split.
  - unfold ROR. destruct (Z.eqb_spec n 0); [lia|]. rewrite R. reflexivity.
  - unfold Shift_C. cbn. destruct (Z.eqb_spec n 0); [lia|]. rewrite R. reflexivity.
Qed.
(*@ex
Example C17_negative_rotation_ex : ROR (bits 8 129) (-1) = Ok (bits 8 3).
Proof. reflexivity. Qed.
@*)

(*@doc C21: reading at any offset; negative positions count from the end, as everywhere in Python. @*)
Lemma C21_any_offset_proof : forall data off, Forall (fun b => 0 <= b < 256) data ->
  let n := Z.of_nat (List.length data) in
  let at_ i := nth (Z.to_nat (from_end n i)) data 0 in
  bytes_to_le16 data off = (if (- n <=? off) && (off + 1 <? n) then Ok (at_ off + 256 * at_ (off + 1)) else Err IndexError) /\
  bytes_to_le32 data off = (if (- n <=? off) && (off + 3 <? n)
    then Ok (at_ off + 256 * at_ (off + 1) + 65536 * at_ (off + 2) + 16777216 * at_ (off + 3)) else Err IndexError).
Proof.
  intros data off F n at_.
  assert (P : forall i, py_nth data i = if (- n <=? i) && (i <? n) then Ok (at_ i) else Err IndexError).
  { intros i. unfold py_nth, at_, from_end. fold n. cbv zeta. set (j := if i <? 0 then i + n else i).
    destruct (Z.leb_spec (- n) i) as [A|A], (Z.ltb_spec i n) as [B|B]; cbn [andb].
    2-4: replace ((j <? 0) || (n <=? j)) with true by (unfold j; destruct (Z.ltb_spec i 0); lia); reflexivity.
    replace ((j <? 0) || (n <=? j)) with false by (unfold j; destruct (Z.ltb_spec i 0); lia).
    rewrite (nth_error_nth' data 0); [reflexivity|]. unfold j, n. destruct (Z.ltb_spec i 0); lia. }
  assert (B : forall i, 0 <= at_ i < 256).
  { intros i. unfold at_. destruct (nth_in_or_default (Z.to_nat (from_end n i)) data 0) as [I| ->]; [|lia].
    rewrite Forall_forall in F. exact (F _ I). }
  split; unfold bytes_to_le16, bytes_to_le32; rewrite !P.
  - pose proof (B off). pose proof (B (off + 1)).
    destruct (Z.leb_spec (- n) off), (Z.ltb_spec (off + 1) n), (Z.ltb_spec off n), (Z.leb_spec (- n) (off + 1)); cbn [andb bind]; try lia; try reflexivity.
    rewrite (lor_shift_plus _ _ 8) by lia. reflexivity.
  - pose proof (B off). pose proof (B (off + 1)). pose proof (B (off + 2)). pose proof (B (off + 3)).
    destruct ((- n <=? off) && (off + 3 <? n)) eqn:E.
    + replace ((- n <=? off) && (off <? n)) with true by lia. replace ((- n <=? off + 1) && (off + 1 <? n)) with true by lia.
      replace ((- n <=? off + 2) && (off + 2 <? n)) with true by lia. replace ((- n <=? off + 3) && (off + 3 <? n)) with true by lia.
      cbn [bind]. rewrite (lor_shift_plus _ _ 8) by lia. rewrite (lor_shift_plus _ _ 16) by lia. rewrite (lor_shift_plus _ _ 24) by lia. reflexivity.
    + destruct ((- n <=? off) && (off <? n)) eqn:E0; [cbn [bind]|reflexivity]. destruct ((- n <=? off + 1) && (off + 1 <? n)) eqn:E1; [cbn [bind]|reflexivity].
      destruct ((- n <=? off + 2) && (off + 2 <? n)) eqn:E2; [cbn [bind]|reflexivity]. destruct ((- n <=? off + 3) && (off + 3 <? n)) eqn:E3; [exfalso; lia|reflexivity].
Qed.
(*@ex
Example C21_any_offset_ex : bytes_to_le16 [1; 2; 3] (-1) = Ok 259 /\ bytes_to_le16 [1; 2; 3] (-2) = Ok 770 /\ bytes_to_le16 [1; 2; 3] (-4) = Err IndexError.
Proof. repeat split. Qed.
@*)

(*@doc C82: what the failing dump has printed: in Python 3 the first mask of a tree that is not a
single leaf is the last line. @*)
Lemma C82_py3_lines_proof : forall (H : Type) (ds16 ds32 : list (decoder H)) t16 t32,
  let shown t := match t with
    | Leaf ds => (MaskLine 0 0 :: map (fun '(i, d) => DecoderLine 0 i d) (combine (seq 0 (List.length ds)) ds))%list
    | Node m _ => [MaskLine 0 m]
    | EmptyList => []
    end in
  fst (dump 2 Py3 (mkregistry ds16 ds32 (Some t16) (Some t32)) None) =
    (Heading "16-bit instructions:" :: shown t16 ++ if leaf t16 then Heading "32-bit instructions:" :: shown t32 else [])%list.
Proof.
  intros H ds16 ds32 t16 t32 shown.
  assert (D : forall ds depth i, decoder_lines depth i ds = map (fun '(i, d) => DecoderLine (H := H) depth i d) (combine (seq i (List.length ds)) ds)).
  { intros ds. induction ds as [|d ds IH]; intros depth i; [reflexivity|]. cbn [decoder_lines List.length seq combine map]. rewrite IH. reflexivity. }
  assert (S : forall t, dump_tree Py3 0 t = (shown t, if leaf t then Ok tt else Err AttributeError)).
  { intros t; destruct t; cbn [dump_tree leaf shown]; rewrite ?D; reflexivity. }
  cbn [dump rg_tree16 rg_tree32]. rewrite !S. destruct (leaf t16); cbn [fst]; [reflexivity|]. rewrite app_nil_r. reflexivity.
Qed.
(*@ex
Example C82_py3_lines_ex : let call := fun (_ : pyver) (_ : Z) i (_ : list (string * bs)) => Ok i in
  fst (dump 2 Py3 (r_history call [RInstr 1 "one" Instruction "0000 0000 a(8)" None []; RInstr 2 "two" Instruction "0000 0001 a(8)" None []; RBuild]) None)
  = [Heading "16-bit instructions:"; MaskLine 0 65280].
Proof. vm_compute. reflexivity. Qed.
@*)
