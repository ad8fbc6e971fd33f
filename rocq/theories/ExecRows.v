(** * Every decoded instruction has one of the shapes *)
From Coq Require Import Lia ZifyBool.
From Verif Require Import BitstringModel SpecBits BitFacts BitOps BitMisc BitText BitThms HelpersModel SpecArm HelpFacts HelpThms UtilFacts CpuModel SpecCpu
  CpuFacts CpuThms InsnModel TableModel IsaOps IsaBound IsaThms ExecModel SpecExec ExecFacts ExecShape SpecIsa SpecWhole.
Local Open Scope bool_scope.
Local Open Scope Z_scope.

Lemma imm_shift_ok : forall y i, 0 <= y < 4 -> 0 <= i < 32 -> shift_ok (fst (imm_shift y i)) (snd (imm_shift y i)).
Proof.
  intros y i Y I. unfold imm_shift. assert (Hc : y = 0 \/ y = 1 \/ y = 2 \/ y = 3) by lia.
  destruct Hc as [-> | [-> | [-> | -> ]]]; destruct (i =? 0) eqn:E; cbn; split; (lia || congruence).
Qed.
Lemma flipped_word : forall off, - 2 ^ 32 <= off < 2 ^ 32 -> word (flipped off).
Proof. intros off H. unfold flipped, word. destruct (off <? 0) eqn:E; lia. Qed.
Lemma twos_bounds : forall w v, 1 <= w <= 32 -> 0 <= v < 2 ^ w -> - 2 ^ 32 <= twos w v < 2 ^ 32.
Proof.
  intros w v W V. unfold twos. cbv zeta. pose proof (Z.pow_le_mono_r 2 w 32 ltac:(lia) ltac:(lia)).
  rewrite !(Z.mod_small v) by exact V. repeat match goal with |- context [if ?b then _ else _] => destruct b end; lia.
Qed.
Lemma half_pow : forall t, 0 <= t < 16 -> half (2 ^ t).
Proof. intros t H. split; [apply Z.pow_nonneg; lia|apply Z.pow_lt_mono_r; lia]. Qed.
Lemma bl_range : forall s a b k i, 0 <= s < 2 -> 0 <= k < 1024 -> 0 <= i < 2048 -> 0 <= bl_offset s a b k i < 2 ^ 25.
Proof. intros. unfold bl_offset. cbv zeta. change (2 ^ 25) with 33554432. destruct (a =? s), (b =? s); lia. Qed.

Definition row_shape (r : isa_row) : Prop := forall py w,
  match observed py r w with Gives _ k l _ => shape k l | _ => True end.

Ltac side_bounds w :=
  repeat match goal with |- context [field ?t w ?s] =>
    let B := fresh "B" in pose proof (field_bound t w s) as B;
    let n := eval vm_compute in (field_top t s) in change (field_top t s) with n in B;
    let x := fresh "x" in set (x := field t w s) in *; clearbody x end.
Ltac side := first
  [ assumption | reflexivity | discriminate | exact Logic.I
  | apply half_pow; lia
  | apply imm_shift_ok; lia
  | apply expand_range; lia
  | apply flipped_word, twos_bounds; [lia|first [apply bl_range; lia | lia]]
  | unfold gpr; match goal with |- context [?x mod 8] => pose proof (Z.mod_pos_bound x 8 ltac:(lia)) end; lia
  | unfold gpr, word, half, reglist; lia
  | change (2 ^ 31) with 2147483648; lia
  | unfold size_ok; lia
  | split; [lia|discriminate]
  | split; [match goal with |- context [if ?b then _ else _] => destruct b end; lia|discriminate]
  | left; reflexivity | right; reflexivity
  | match goal with H : _ || negb (special _) = false |- _ => apply orb_false_iff in H; destruct H as [_ H]; apply negb_false_iff in H; exact H end ].
Ltac one_row := intros py w; unfold observed, documented; cbn [r_dev row row_dev r_text r_doc];
  side_bounds w;
  repeat match goal with |- match (if ?b then _ else _) with _ => _ end => destruct b eqn:? end;
  cbv iota; try exact Logic.I; first [constructor; side].

Lemma rows_shape : Forall row_shape (isa16 ++ isa32).
Proof.
  apply Forall_app. split; unfold isa16, isa32; repeat (apply Forall_cons; [one_row|]); apply Forall_nil.
Qed.

Lemma decoded_shaped : forall py i, from_bytes py i -> shaped i.
Proof.
  intros py i (data & a & B & E).
  assert (L : (2 <= List.length data)%nat) by (destruct (C30_bytes_proof py data a i B E) as (_ & _ & S & S'); destruct (in_dec Z.eq_dec _ _) in S; lia).
  destruct (decode_cases py data a B L) as [X|[X|[w [is32 [r [I [F [O [X D]]]]]]]]]; rewrite X in E; try discriminate E.
  pose proof (proj1 (Forall_forall _ _) rows_shape r I py w) as S.
  destruct (observed py r w) as [m k l ops| | |e]; cbn [decoded] in E; try discriminate E. injection E as <-.
  exists l. split; [exact S|reflexivity].
Qed.
