(** * The operations of the handlers on field values, and the tactic that checks one
    row of the encoding table against its decoder. *)
From Coq Require Import ZArith List Lia Bool ZifyBool String.
From Verif Require Import BitFacts BitOps BitText BitMisc HelpFacts HelpThms TableModel SpecArm SpecBits SpecDecoder SpecIsa IsaFacts.
Local Open Scope Z_scope.

Lemma uns : forall s v, 0 <= v < 2 ^ s -> bs_unsigned (bits s v) = v.
Proof. intros s v H. unfold bs_unsigned, bits. cbn [bv]. apply Z.mod_small. exact H. Qed.

Lemma cat_b : forall s1 v1 s2 v2 s3, 0 <= s1 -> 0 <= s2 -> 0 <= v1 < 2 ^ s1 -> 0 <= v2 < 2 ^ s2 -> s3 = s1 + s2 ->
  TableModel.cat (bits s1 v1) (bits s2 v2) = Ok (bits s3 (v1 * 2 ^ s2 + v2)).
Proof.
  intros s1 v1 s2 v2 s3 H1 H2 R1 R2 ->. unfold TableModel.cat. rewrite mod_bits by (apply wf_bits; assumption).
  unfold BitOps.cat. rewrite !bits_small by assumption. cbn [bw bv]. f_equal.
  rewrite bits_small; [reflexivity|]. rewrite pow2_add by assumption. pose proof (pow2_pos s2 H2). nia.
Qed.

Lemma cat_zeros : forall k s v s3, 0 < k -> 0 <= s -> 0 <= v < 2 ^ s -> s3 = s + k ->
  cat_str (bits s v) (repeat_char "0" (Z.to_nat k)) = Ok (bits s3 (2 ^ k * v)).
Proof.
  intros k s v s3 Hk Hs Hv E. unfold cat_str, bs_mod. pose proof (zeros_ok k Hk) as Z0. unfold zeros in Z0. rewrite Z0. cbn [bind].
  change (bs_cat (bits s v) (bits k 0)) with (TableModel.cat (bits s v) (bits k 0)).
  rewrite (cat_b s v k 0 s3); [f_equal; f_equal; lia | lia | lia | lia | | exact E].
  pose proof (pow2_pos k). lia.
Qed.
Lemma cat_1 : forall s v s3, 0 <= s -> 0 <= v < 2 ^ s -> s3 = s + 1 -> cat_str (bits s v) "0" = Ok (bits s3 (2 * v)).
Proof. intros s v s3 Hs Hv E. exact (cat_zeros 1 s v s3 ltac:(lia) Hs Hv E). Qed.
Lemma cat_2 : forall s v s3, 0 <= s -> 0 <= v < 2 ^ s -> s3 = s + 2 -> cat_str (bits s v) "00" = Ok (bits s3 (4 * v)).
Proof. intros s v s3 Hs Hv E. exact (cat_zeros 2 s v s3 ltac:(lia) Hs Hv E). Qed.
Lemma cat_6 : forall s v s3, 0 <= s -> 0 <= v < 2 ^ s -> s3 = s + 6 -> cat_str (bits s v) "000000" = Ok (bits s3 (64 * v)).
Proof. intros s v s3 Hs Hv E. exact (cat_zeros 6 s v s3 ltac:(lia) Hs Hv E). Qed.
Lemma cat_7 : forall s v s3, 0 <= s -> 0 <= v < 2 ^ s -> s3 = s + 7 -> cat_str (bits s v) "0000000" = Ok (bits s3 (128 * v)).
Proof. intros s v s3 Hs Hv E. exact (cat_zeros 7 s v s3 ltac:(lia) Hs Hv E). Qed.
Lemma eight_zeros : bs_init (VStr "00000000") None = Ok (bits 8 0).
Proof. reflexivity. Qed.
Lemma bit0_b : bit0 = bits 1 0.
Proof. reflexivity. Qed.

Lemma zext : forall s v w, 0 <= s -> 0 <= v < 2 ^ s -> s <= w -> bs_zero_extend (bits s v) w = Ok (bits w v).
Proof.
  intros s v w Hs Hv Hw. rewrite zero_extend_ok; [|apply wf_bits; exact Hs | exact Hw].
  rewrite (bits_small s) by exact Hv. reflexivity.
Qed.

Lemma expand_b : forall v, 0 <= v < 4096 -> ThumbExpandImm (bits 12 v) = Ok (bits 32 (expand_imm v)).
Proof. intros v Hv. unfold ThumbExpandImm. rewrite expand_ok by exact Hv. reflexivity. Qed.
Lemma expand_range : forall v, 0 <= v < 4096 -> 0 <= expand_imm v < 2 ^ 32.
Proof.
  intros v Hv.
  assert (E : (0 <=? expand_imm v) && (expand_imm v <? 4294967296) = true)
    by (apply (sweep _ (fun v => (0 <=? expand_imm v) && (expand_imm v <? 4294967296)) (fun _ => true) 4096); [vm_compute; reflexivity | exact Hv]).
  change (2 ^ 32) with 4294967296. lia.
Qed.

Lemma two_cases : forall v, 0 <= v < 2 -> v = 0 \/ v = 1.
Proof. lia. Qed.

Lemma eq1 : forall v, 0 <= v < 2 -> eq_text (bits 1 v) "1" = Ok (v =? 1).
Proof. intros v H. destruct (two_cases v H) as [-> | ->]; reflexivity. Qed.
Lemma eq0 : forall v, 0 <= v < 2 -> eq_text (bits 1 v) "0" = Ok (v =? 0).
Proof. intros v H. destruct (two_cases v H) as [-> | ->]; reflexivity. Qed.
Lemma eqi0 : forall v, 0 <= v < 2 -> bs_eq (bits 1 v) (VInt 0) = Ok (bits 1 v, v =? 0).
Proof. intros v H. destruct (two_cases v H) as [-> | ->]; reflexivity. Qed.
Lemma eq1101 : forall v, 0 <= v < 16 -> eq_text (bits 4 v) "1101" = Ok (v =? 13).
Proof. apply (sweep _ (fun v => eq_text (bits 4 v) "1101") (fun v => Ok (v =? 13)) 16). vm_compute. reflexivity. Qed.
Lemma eq00 : forall v, 0 <= v < 4 -> eq_text (bits 2 v) "00" = Ok (v =? 0).
Proof. apply (sweep _ (fun v => eq_text (bits 2 v) "00") (fun v => Ok (v =? 0)) 4). vm_compute. reflexivity. Qed.
Lemma ne10 : forall v, 0 <= v < 4 -> bs_ne (bits 2 v) (VStr "10") = Ok (bits 2 v, negb (v =? 2)).
Proof. apply (sweep _ (fun v => bs_ne (bits 2 v) (VStr "10")) (fun v => Ok (bits 2 v, negb (v =? 2))) 4). vm_compute. reflexivity. Qed.
Lemma ne_b : forall s v u, 0 <= v < 2 ^ s -> 0 <= u < 2 ^ s -> bs_ne (bits s v) (VBits (bits s u)) = Ok (bits s v, negb (v =? u)).
Proof.
  intros s v u Hv Hu. unfold bs_ne, bs_eq, bs_eqb. rewrite !bits_small by assumption. cbn [bw bv bind]. rewrite Z.eqb_refl. reflexivity.
Qed.

Lemma truthy_b : forall py v, 0 <= v < 2 -> bs_truthy py (bits 1 v) = match py with Py2 => v =? 1 | Py3 => true end.
Proof. intros py v H. destruct py; destruct (two_cases v H) as [-> | ->]; reflexivity. Qed.
Lemma never_always_b : forall v, 0 <= v < 2 -> never_always v = Ok (if v =? 1 then Always else Never).
Proof. intros v H. destruct (two_cases v H) as [-> | ->]; reflexivity. Qed.

Lemma rotation_b : forall v, 0 <= v < 4 -> py_nth [0; 8; 16; 24] v = Ok (8 * v).
Proof. apply (sweep _ (fun v => py_nth [0; 8; 16; 24] v) (fun v => Ok (8 * v)) 4). vm_compute. reflexivity. Qed.

Lemma condition_b : forall v, 0 <= v < 16 -> cond_mnemonic v = Ok (condition v).
Proof. apply (sweep _ cond_mnemonic (fun v => Ok (condition v)) 16). vm_compute. reflexivity. Qed.

Lemma sysm_b : forall v, sysm_ok v = special v.
Proof. intro v. unfold sysm_ok, special. cbn [existsb]. lia. Qed.
Lemma low_b : forall v, 0 <= v -> existsb (Z.eqb v) (py_range 4) = negb (4 <=? v).
Proof. intros v H. change (py_range 4) with [0; 1; 2; 3]. cbn [existsb]. lia. Qed.

Lemma zeros_32 : zeros 32 = Ok (bits 32 0).
Proof. reflexivity. Qed.
Lemma zeros_16 : zeros 16 = Ok (bits 16 0).
Proof. reflexivity. Qed.
Lemma set_one : forall v, 0 <= v < 16 -> bs_setitem (bits 16 0) (KInt v) (VInt 1) = Ok (bits 16 (2 ^ v)).
Proof. apply (sweep _ (fun v => bs_setitem (bits 16 0) (KInt v) (VInt 1)) (fun v => Ok (bits 16 (2 ^ v))) 16). vm_compute. reflexivity. Qed.
Lemma count_b : forall v, 0 <= v < 65536 -> bs_bit_count (bits 16 v) = Ok (ones_below 16 v).
Proof.
  intros v H. rewrite bit_count_ok by (apply wf_bits; lia). cbn [bw bv bits]. change (Z.to_nat 16) with 16%nat.
  rewrite Z.mod_small by (change (2 ^ 16) with 65536; exact H). reflexivity.
Qed.
Lemma ones_zero : forall v, 0 <= v < 256 -> (ones_below 16 v <? 1) = (v =? 0).
Proof. apply (sweep _ (fun v => ones_below 16 v <? 1) (fun v => v =? 0) 256). vm_compute. reflexivity. Qed.
Lemma reg_bit_1 : forall v n, 0 <= v < 65536 -> 0 <= n -> reg_bit_is (bits 16 v) n "1" = Ok (Z.testbit v n).
Proof.
  intros v n Hv Hn. unfold reg_bit_is, bs_getitem. rewrite get_bit_ok by exact Hn. cbn [bind]. unfold bit.
  rewrite bits_small by (change (2 ^ 16) with 65536; exact Hv). cbn [bv]. destruct (Z.testbit v n); reflexivity.
Qed.
Lemma reg_bit_0 : forall v n, 0 <= v < 65536 -> 0 <= n -> reg_bit_is (bits 16 v) n "0" = Ok (negb (Z.testbit v n)).
Proof.
  intros v n Hv Hn. unfold reg_bit_is, bs_getitem. rewrite get_bit_ok by exact Hn. cbn [bind]. unfold bit.
  rewrite bits_small by (change (2 ^ 16) with 65536; exact Hv). cbn [bv]. destruct (Z.testbit v n); reflexivity.
Qed.

Lemma bl_xor : forall a s, 0 <= a < 2 -> 0 <= s < 2 -> bs_xor (bits 1 a) (VBits (bits 1 s)) = Ok (bits 1 (if a =? s then 0 else 1)).
Proof. intros a s Ha Hs. destruct (two_cases a Ha) as [-> | ->]; destruct (two_cases s Hs) as [-> | ->]; reflexivity. Qed.
Lemma bl_not : forall b : bool, bs_invert (bits 1 (if b then 0 else 1)) = Ok (bits 1 (if b then 1 else 0)).
Proof. intros []; reflexivity. Qed.

(** Sign extension followed by reading [signed]. *)
Lemma label_b : forall k v i, 1 <= k <= 31 -> 0 <= v < 2 ^ k ->
  (let* imm32 := bs_sign_extend (bits k v) 32 in label_of_imm32 imm32 i) =
  Ok (set_operands [LabelOp (twos k v)] (set_imm32 (bits 32 (flipped (twos k v))) i)).
Proof.
  intros k v i Hk Hv. rewrite sign_extend_ok; [|apply wf_bits; lia | cbn [bw bits]; lia | cbn [bw bits]; lia].
  cbn [bind]. rewrite (bits_small k v) by exact Hv. cbn [bw bv]. unfold label_of_imm32.
  destruct (twos_range k v ltac:(lia)) as [R _]. pose proof (pow2_le (k - 1) 30 ltac:(lia)). change (2 ^ 30) with 1073741824 in *.
  unfold flipped. destruct (twos k v <? 0) eqn:N.
  - rewrite signed_neg; [|apply wf_bits; lia | cbn; lia |].
    + cbn [bind bw bits bv]. change (2 ^ 32) with 4294967296.
      replace (twos k v mod 4294967296) with (twos k v + 4294967296) by (apply (Z.mod_unique _ _ (-1)); lia).
      f_equal. f_equal; [f_equal; f_equal; lia|f_equal; f_equal; lia].
    + cbn [bw bits bv]. change (2 ^ (32 - 1)) with 2147483648. change (2 ^ 32) with 4294967296.
      replace (twos k v mod 4294967296) with (twos k v + 4294967296) by (apply (Z.mod_unique _ _ (-1)); lia). lia.
  - rewrite signed_pos; [|apply wf_bits; lia | cbn; lia |].
    + cbn [bind bits bv]. rewrite Z.mod_small by (change (2 ^ 32) with 4294967296; lia). reflexivity.
    + cbn [bw bits bv]. rewrite Z.mod_small by (change (2 ^ 32) with 4294967296; lia). change (2 ^ (32 - 1)) with 2147483648. lia.
Qed.

Lemma if_negb : forall (A : Type) (b : bool) (x y : A), (if negb b then x else y) = if b then y else x.
Proof. intros A [] x y; reflexivity. Qed.

(** ** One row *)
Definition row_ok (d : decoder hid) (r : isa_row) : Prop := forall py w a,
  check d w = true ->
  decode_one call_handler py d w a = decoded (d_is32 d) w a (observed py r w) /\
  is_other (observed py r w) = is_other (documented r w) /\
  (forall e, observed py r w = Raises e -> e <> DecodeError).

Ltac fields_of_spec :=
  repeat match goal with
  | |- context [field ?t ?w ?l] =>
    rewrite (field_runs t w l eq_refl);
    let r := eval vm_compute in (runs t l) in change (runs t l) with r
  end;
  cbn [run_value eval_runs fold_left].

Ltac open_decoder :=
  unfold decode_one;
  match goal with |- context [map_res ?f ?fs] =>
    let fs' := eval cbv in fs in change fs with fs'
  end;
  rewrite read_fields by reflexivity;
  cbv [bind map d_klass d_mnemonic d_is32 d_args d_handler d_fields call_handler handler_of all_some dict_get List.length
       Nat.eqb String.eqb Ascii.eqb Bool.eqb fst snd].

Ltac abstract_fields C :=
  repeat match goal with
  | |- context [fld ?w ?lo ?size] =>
    first
    [ let m := match type of C with Z.land _ ?mask = ?mt => constr:(mt) end in
      let v := eval vm_compute in (fld m lo size) in
      replace (fld w lo size) with v by (symmetry; exact (fld_fixed w _ _ lo size C ltac:(lia) ltac:(lia) eq_refl))
    | let n := eval vm_compute in (2 ^ size) in
      let H := fresh "R" in
      assert (H : 0 <= fld w lo size < n) by exact (fld_range w lo size ltac:(lia));
      let x := fresh "x" in set (x := fld w lo size) in *; clearbody x ]
  end.

Ltac in_range := match goal with |- 0 <= _ < ?n => let n' := eval vm_compute in n in change n with n'; lia end.

Ltac step :=
  match goal with
  | |- context [bs_unsigned (bits ?s (expand_imm ?v))] => rewrite (uns s (expand_imm v)) by (apply expand_range; lia)
  | |- context [bs_unsigned (bits ?s ?v)] => rewrite (uns s v) by in_range
  | |- context [TableModel.cat bit0 ?y] => rewrite bit0_b
  | |- context [TableModel.cat ?y bit0] => rewrite bit0_b
  | |- context [TableModel.cat (bits ?s1 ?v1) (bits ?s2 ?v2)] =>
    let s3 := eval vm_compute in (s1 + s2) in
    rewrite (cat_b s1 v1 s2 v2 s3) by (first [lia | in_range | reflexivity]);
    let p := eval vm_compute in (2 ^ s2) in change (2 ^ s2) with p
  | |- context [cat_str (bits ?s ?v) "0"] => let s3 := eval vm_compute in (s + 1) in rewrite (cat_1 s v s3) by (first [lia | in_range | reflexivity])
  | |- context [cat_str (bits ?s ?v) "00"] => let s3 := eval vm_compute in (s + 2) in rewrite (cat_2 s v s3) by (first [lia | in_range | reflexivity])
  | |- context [cat_str (bits ?s ?v) "000000"] => let s3 := eval vm_compute in (s + 6) in rewrite (cat_6 s v s3) by (first [lia | in_range | reflexivity])
  | |- context [cat_str (bits ?s ?v) "0000000"] => let s3 := eval vm_compute in (s + 7) in rewrite (cat_7 s v s3) by (first [lia | in_range | reflexivity])
  | |- context [bs_zero_extend (bits ?s ?v) ?w] => rewrite (zext s v w) by (first [lia | in_range])
  | |- context [ThumbExpandImm (bits 12 ?v)] => rewrite (expand_b v) by lia
  | |- context [ThumbExpandImm_C (bits 12 ?v) ?c] => rewrite (expand_ok v c) by lia
  | |- context [DecodeImmShift (bits 2 ?t) (bits 5 ?n)] =>
    rewrite (decode_shift_ok t n) by lia; rewrite (surjective_pairing (imm_shift t n))
  | |- context [eq_text (bits 1 ?v) "1"] => rewrite (eq1 v) by lia
  | |- context [eq_text (bits 1 ?v) "0"] => rewrite (eq0 v) by lia
  | |- context [eq_text (bits 4 ?v) "1101"] => rewrite (eq1101 v) by lia
  | |- context [eq_text (bits 2 ?v) "00"] => rewrite (eq00 v) by lia
  | |- context [bs_eq (bits 1 ?v) (VInt 0)] => rewrite (eqi0 v) by lia
  | |- context [bs_ne (bits 2 ?v) (VStr "10")] => rewrite (ne10 v) by lia
  | |- context [bs_ne (bits ?s ?v) (VBits (bits ?s ?u))] => rewrite (ne_b s v u) by in_range
  | |- context [bs_truthy ?py (bits 1 ?v)] => rewrite (truthy_b py v) by lia
  | |- context [never_always ?v] => rewrite (never_always_b v) by lia
  | |- context [py_nth [0; 8; 16; 24] ?v] => rewrite (rotation_b v) by lia
  | |- context [cond_mnemonic ?v] => rewrite (condition_b v) by lia
  | |- context [sysm_ok ?v] => rewrite (sysm_b v)
  | |- context [existsb (Z.eqb ?v) (py_range 4)] => rewrite (low_b v) by lia; rewrite negb_involutive
  | |- context [zeros 32] => rewrite zeros_32
  | |- context [zeros 16] => rewrite zeros_16
  | |- context [bs_init (VStr "00000000") None] => rewrite eight_zeros
  | |- context [bs_setitem (bits 16 0) (KInt ?v) (VInt 1)] => rewrite (set_one v) by lia
  | |- context [bs_bit_count (bits 16 ?v)] => rewrite (count_b v) by lia
  | |- context [reg_bit_is (bits 16 ?v) ?n "1"] => rewrite (reg_bit_1 v n) by lia
  | |- context [reg_bit_is (bits 16 ?v) ?n "0"] => rewrite (reg_bit_0 v n) by lia
  | |- context [bs_xor (bits 1 ?a) (VBits (bits 1 ?s))] => rewrite (bl_xor a s) by lia
  | |- context [bs_invert (bits 1 (if ?b then 0 else 1))] => rewrite (bl_not b)
  end; cbn [bind fst snd].

(** Goal: [decode_one call_handler py d w a = decoded ... (...)]. *)
Ltac row_start :=
  let py := fresh "py" in let w := fresh "w" in let a := fresh "a" in let C := fresh "C" in
  intros py w a C; unfold check in C; apply Z.eqb_eq in C;
  match type of C with Z.land _ ?m = ?t =>
    let m' := eval cbv in m in let t' := eval cbv in t in change (Z.land w m' = t') in C end;
  unfold observed, documented; cbn [r_dev r_doc r_text row row_dev].
