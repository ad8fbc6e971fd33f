(** * The range of a field of an encoding *)
From Coq Require Import Lia.
From Verif Require Import InsnModel SpecIsa IsaFacts.
Local Open Scope Z_scope.

Lemma horner_bound : forall w ps acc, 0 <= acc ->
  0 <= horner w ps acc < (acc + 1) * 2 ^ Z.of_nat (List.length ps).
Proof.
  intros w ps. induction ps as [|p ps IH]; intros acc H; [unfold horner; cbn; lia|].
  unfold horner in *. cbn [fold_left List.length]. set (b := if Z.testbit w p then 1 else 0).
  assert (B : 0 <= b <= 1) by (unfold b; destruct (Z.testbit w p); lia).
  specialize (IH (2 * acc + b) ltac:(lia)).
  rewrite Nat2Z.inj_succ, Z.pow_succ_r by lia. pose proof (Z.pow_pos_nonneg 2 (Z.of_nat (List.length ps)) ltac:(lia) ltac:(lia)). nia.
Qed.
Definition field_top (text letter : string) : Z := 2 ^ Z.of_nat (List.length (spots text letter)).
Lemma field_bound : forall text w letter, 0 <= field text w letter < field_top text letter.
Proof. intros. rewrite field_spots. pose proof (horner_bound w (spots text letter) 0 ltac:(lia)). unfold field_top. lia. Qed.
