(** * Facts about the encoding table: fields of a word, fixed bits, and the
    operations of the handlers on field values. *)
From Coq Require Import ZArith List Lia Bool ZifyBool.
From Verif Require Import BitFacts BitOps BitText BitMisc HelpFacts HelpThms TableModel SpecArm SpecBits SpecDecoder SpecIsa.
Local Open Scope Z_scope.

(** ** Fields *)
Definition fld (w lo size : Z) : Z := (w / 2 ^ lo) mod 2 ^ size.

Lemma fld_range : forall w lo size, 0 <= size -> 0 <= fld w lo size < 2 ^ size.
Proof. intros w lo size H. unfold fld. pose proof (pow2_pos size H). apply Z.mod_pos_bound. lia. Qed.

Lemma fld_succ : forall w lo size, 0 <= lo -> 0 <= size ->
  fld w lo (size + 1) = (if Z.testbit w (lo + size) then 1 else 0) * 2 ^ size + fld w lo size.
Proof.
  intros w lo size Hl Hs. unfold fld. pose proof (pow2_pos size Hs).
  rewrite (Z.add_comm (_ * _)). rewrite pow2_add, Z.rem_mul_r by lia. change (2 ^ 1) with 2.
  rewrite Z.div_div by (try apply Z.pow_nonzero; lia). rewrite <- pow2_add by lia.
  rewrite Z.testbit_eqb by lia.
  pose proof (Z.mod_pos_bound (w / 2 ^ (lo + size)) 2 ltac:(lia)).
  destruct ((w / 2 ^ (lo + size)) mod 2 =? 1) eqn:E.
  - apply Z.eqb_eq in E. rewrite E. lia.
  - apply Z.eqb_neq in E. replace ((w / 2 ^ (lo + size)) mod 2) with 0 by lia. lia.
Qed.

Definition spots (text letter : string) : list Z :=
  map fst (filter (fun '(p, c) => String.eqb (String c "") letter) (placed text)).

Definition horner (w : Z) (ps : list Z) (acc : Z) : Z :=
  fold_left (fun acc p => 2 * acc + (if Z.testbit w p then 1 else 0)) ps acc.

Lemma field_spots : forall text w letter, field text w letter = horner w (spots text letter) 0.
Proof.
  intros text w letter. unfold field, spots.
  enough (G : forall l acc, fold_left (fun acc '(p, c) =>
      if String.eqb (String c "") letter then 2 * acc + (if Z.testbit w p then 1 else 0) else acc) l acc =
    horner w (map fst (filter (fun '(p, c) => String.eqb (String c "") letter) l)) acc) by apply G.
  induction l as [|[p c] l IH]; intro acc; [reflexivity|].
  cbn [filter fold_left]. destruct (String.eqb (String c "") letter); apply IH.
Qed.

Fixpoint group (ps : list Z) : list (Z * Z) :=
  match ps with
  | [] => []
  | p :: ps' =>
    match group ps' with
    | (lo, size) :: r => if lo + size =? p then (lo, size + 1) :: r else (p, 1) :: (lo, size) :: r
    | [] => [(p, 1)]
    end
  end.
Definition eval_runs (w acc : Z) (l : list (Z * Z)) : Z :=
  fold_left (fun acc '(lo, size) => acc * 2 ^ size + fld w lo size) l acc.

Lemma group_ok : forall w ps, Forall (fun p => 0 <= p) ps ->
  Forall (fun r => 0 <= fst r /\ 1 <= snd r) (group ps) /\ forall acc, horner w ps acc = eval_runs w acc (group ps).
Proof.
  intros w ps H. induction H as [|p ps Hp _ [IH1 IH2]]; [split; [constructor | reflexivity]|].
  assert (E : forall acc, horner w (p :: ps) acc = eval_runs w (2 * acc + (if Z.testbit w p then 1 else 0)) (group ps))
    by (intro acc; exact (IH2 _)).
  assert (O : fld w p 1 = if Z.testbit w p then 1 else 0).
  { pose proof (fld_succ w p 0 Hp ltac:(lia)) as F. change (0 + 1) with 1 in F. rewrite F.
    rewrite Z.add_0_r. unfold fld. change (2 ^ 0) with 1. rewrite Z.mod_1_r. lia. }
  cbn [group]. destruct (group ps) as [|[lo size] r] eqn:G.
  - split; [apply Forall_cons; [cbn; lia|constructor]|]. intro acc. rewrite E. unfold eval_runs; cbn [fold_left].
    rewrite O. change (2 ^ 1) with 2. lia.
  - apply Forall_inv in IH1 as I1. cbn [fst snd] in I1. destruct (lo + size =? p) eqn:Q.
    + apply Z.eqb_eq in Q. split; [apply Forall_cons; [cbn [fst snd]; lia|exact (Forall_inv_tail IH1)]|].
      intro acc. rewrite E. unfold eval_runs; cbn [fold_left]. f_equal.
      rewrite fld_succ by lia. rewrite Q. rewrite pow2_add by lia. change (2 ^ 1) with 2. lia.
    + split; [apply Forall_cons; [cbn; lia|exact IH1]|]. intro acc. rewrite E. unfold eval_runs; cbn [fold_left].
      rewrite O. change (2 ^ 1) with 2. f_equal. f_equal. lia.
Qed.

Definition runs (text letter : string) : list (Z * Z) := group (spots text letter).
Definition run_value (w : Z) (l : list (Z * Z)) : Z :=
  match l with [] => 0 | (lo, size) :: r => eval_runs w (fld w lo size) r end.

Definition places_ok (text : string) : bool :=
  forallb (fun p => 0 <=? p) (map fst (placed text)) &&
  (fix nodup l := match l with [] => true | x :: l' => negb (existsb (Z.eqb x) l') && nodup l' end) (map fst (placed text)).

Lemma places_nonneg : forall text, places_ok text = true -> Forall (fun p => 0 <= p) (map fst (placed text)).
Proof.
  intros text H. unfold places_ok in H. apply andb_prop in H. destruct H as [H _].
  apply Forall_forall. rewrite forallb_forall in H. intros x Hx. specialize (H x Hx). lia.
Qed.

Lemma places_nodup : forall text, places_ok text = true -> NoDup (map fst (placed text)).
Proof.
  intros text H. unfold places_ok in H. apply andb_prop in H. destruct H as [_ H].
  induction (map fst (placed text)) as [|x l IH]; [constructor|]. apply andb_prop in H. destruct H as [H1 H2].
  constructor; [|exact (IH H2)]. intro I. apply negb_true_iff in H1.
  assert (existsb (Z.eqb x) l = true) by (apply existsb_exists; exists x; split; [exact I | apply Z.eqb_refl]). congruence.
Qed.

Lemma field_runs : forall text w letter, places_ok text = true ->
  field text w letter = run_value w (runs text letter).
Proof.
  intros text w letter H. rewrite field_spots.
  assert (N : Forall (fun p => 0 <= p) (spots text letter)).
  { pose proof (places_nonneg text H) as N. unfold spots. rewrite Forall_forall in *. intros x Hx.
    apply in_map_iff in Hx. destruct Hx as [y [<- Hy]]. apply filter_In in Hy. apply N. apply in_map. exact (proj1 Hy). }
  destruct (group_ok w _ N) as [_ E]. rewrite E. unfold runs, run_value.
  destruct (group (spots text letter)) as [|[lo size] r]; [reflexivity|].
  unfold eval_runs. cbn [fold_left]. rewrite Z.mul_0_l, Z.add_0_l. reflexivity.
Qed.

(** ** Fixed bits *)
Definition fixed_mask (l : list (Z * ascii)) : Z :=
  fold_right (fun '(p, c) m => match c with "0"%char | "1"%char => Z.lor (2 ^ p) m | _ => m end) 0 l.
Definition fixed_match (l : list (Z * ascii)) : Z :=
  fold_right (fun '(p, c) m => match c with "1"%char => Z.lor (2 ^ p) m | _ => m end) 0 l.

Definition kind (c : ascii) : option bool := match c with "0"%char => Some false | "1"%char => Some true | _ => None end.

Lemma mask_cons : forall p c l, fixed_mask ((p, c) :: l) =
  match kind c with Some _ => Z.lor (2 ^ p) (fixed_mask l) | None => fixed_mask l end.
Proof. intros p c l. cbn [fixed_mask fold_right]. fold (fixed_mask l). destruct c as [[] [] [] [] [] [] [] []]; reflexivity. Qed.
Lemma match_cons : forall p c l, fixed_match ((p, c) :: l) =
  match kind c with Some true => Z.lor (2 ^ p) (fixed_match l) | _ => fixed_match l end.
Proof. intros p c l. cbn [fixed_match fold_right]. fold (fixed_match l). destruct c as [[] [] [] [] [] [] [] []]; reflexivity. Qed.
Definition fits_list (l : list (Z * ascii)) (w : Z) : bool :=
  forallb (fun '(p, c) => match kind c with Some b => eqb (Z.testbit w p) b | None => true end) l.
Lemma fits_eq : forall text w, fits text w = fits_list (placed text) w.
Proof.
  intros text w. unfold fits, fits_list. induction (placed text) as [|[p c] l IH]; [reflexivity|]. cbn [forallb]. rewrite IH. f_equal.
  destruct c as [[] [] [] [] [] [] [] []]; cbn [kind]; try reflexivity; destruct (Z.testbit w p); reflexivity.
Qed.

Lemma pow2_testbit : forall p i, 0 <= p -> Z.testbit (2 ^ p) i = (p =? i).
Proof. intros p i H. rewrite Z.pow2_bits_eqb by exact H. reflexivity. Qed.

Lemma fixed_none : forall l i, Forall (fun x => 0 <= fst x) l -> ~ In i (map fst l) ->
  Z.testbit (fixed_mask l) i = false /\ Z.testbit (fixed_match l) i = false.
Proof.
  intros l i H N. induction H as [|[p c] l Hp _ IH]; [split; apply Z.bits_0|].
  cbn [map In fst] in N, Hp. destruct IH as [I1 I2]; [tauto|]. rewrite mask_cons, match_cons.
  assert (Z.testbit (2 ^ p) i = false) by (rewrite pow2_testbit by exact Hp; apply Z.eqb_neq; tauto).
  destruct (kind c) as [[]|]; rewrite ?Z.lor_spec, ?I1, ?I2; split; try reflexivity; rewrite H; reflexivity.
Qed.

Lemma fits_mask : forall l w, Forall (fun x => 0 <= fst x) l -> NoDup (map fst l) ->
  (fits_list l w = true <-> Z.land w (fixed_mask l) = fixed_match l).
Proof.
  intros l w H N. rewrite <- Z.bits_inj_iff'. induction H as [|[p c] l Hp Hl IH].
  - cbn. split; [|reflexivity]. intros _ i Hi. rewrite Z.land_0_r. reflexivity.
  - cbn [map fst] in N, Hp. inversion N as [|? ? N1 N2]; subst. specialize (IH N2).
    destruct (fixed_none l p Hl N1) as [F1 F2]. cbn [fits_list forallb]. fold (fits_list l w).
    rewrite andb_true_iff, IH, mask_cons, match_cons.
    destruct (kind c) as [b|]; [|tauto].
    assert (T : forall i, Z.testbit (Z.land w (Z.lor (2 ^ p) (fixed_mask l))) i =
              Z.testbit w i && ((p =? i) || Z.testbit (fixed_mask l) i)).
    { intro i. rewrite Z.land_spec, Z.lor_spec, pow2_testbit by exact Hp. reflexivity. }
    assert (M : forall i, Z.testbit (if b then Z.lor (2 ^ p) (fixed_match l) else fixed_match l) i =
              (b && (p =? i)) || Z.testbit (fixed_match l) i).
    { intro i. destruct b; cbn [andb orb]; [rewrite Z.lor_spec, pow2_testbit by exact Hp; reflexivity | reflexivity]. }
    split.
    + intros [E A] i Hi. rewrite T. replace (Z.testbit (if b then _ else _) i) with (b && (p =? i) || Z.testbit (fixed_match l) i) by (symmetry; apply M).
      specialize (A i Hi). rewrite Z.land_spec in A. destruct (p =? i) eqn:Q.
      * apply Z.eqb_eq in Q. subst i. rewrite F2. apply eqb_prop in E. rewrite E. destruct b; reflexivity.
      * rewrite andb_false_r. cbn [orb]. exact A.
    + intros A. assert (A' : forall i, 0 <= i -> Z.testbit w i && ((p =? i) || Z.testbit (fixed_mask l) i) = b && (p =? i) || Z.testbit (fixed_match l) i).
      { intros i Hi. rewrite <- T, <- M. exact (A i Hi). }
      split.
      * specialize (A' p Hp). rewrite Z.eqb_refl, F2 in A'. cbn [orb] in A'. rewrite andb_true_r, orb_false_r, andb_true_r in A'.
        rewrite A'. apply eqb_reflx.
      * intros i Hi. specialize (A' i Hi). rewrite Z.land_spec. destruct (p =? i) eqn:Q.
        { apply Z.eqb_eq in Q. subst i. rewrite F1, F2, andb_false_r. reflexivity. }
        { rewrite andb_false_r in A'. exact A'. }
Qed.

Lemma fits_check : forall text w, places_ok text = true ->
  fits text w = (Z.land w (fixed_mask (placed text)) =? fixed_match (placed text)).
Proof.
  intros text w H. rewrite fits_eq.
  assert (N : Forall (fun x => 0 <= fst x) (placed text)).
  { pose proof (places_nonneg text H) as N. rewrite Forall_forall in *. intros x Hx. apply N. apply in_map. exact Hx. }
  pose proof (fits_mask _ w N (places_nodup text H)) as F.
  destruct (fits_list (placed text) w); destruct (Z.eqb_spec (Z.land w (fixed_mask (placed text))) (fixed_match (placed text))) as [E|E]; try reflexivity.
  - exfalso. apply E. apply F. reflexivity.
  - apply F in E. discriminate.
Qed.

(** A field inside the fixed bits has a constant value. *)
Lemma fld_fixed : forall w mask mtch lo size, Z.land w mask = mtch -> 0 <= lo -> 0 <= size ->
  fld mask lo size = 2 ^ size - 1 -> fld w lo size = fld mtch lo size.
Proof.
  intros w mask mtch lo size E Hl Hs F. apply Z.bits_inj'. intros i Hi. unfold fld in *. subst mtch.
  assert (T : forall v, Z.testbit ((v / 2 ^ lo) mod 2 ^ size) i = (i <? size) && Z.testbit v (i + lo)).
  { intro v. rewrite testbit_mod by lia. rewrite <- Z.shiftr_div_pow2 by lia. rewrite Z.shiftr_spec by lia. reflexivity. }
  rewrite !T, Z.land_spec. destruct (i <? size) eqn:L; [|reflexivity]. cbn [andb].
  assert (X : Z.testbit ((mask / 2 ^ lo) mod 2 ^ size) i = Z.testbit (2 ^ size - 1) i) by (rewrite F; reflexivity).
  rewrite T in X. cbn [andb] in X. rewrite X.
  replace (2 ^ size - 1) with (Z.ones size) by (rewrite Z.ones_equiv; lia).
  rewrite Z.ones_spec_low by lia. rewrite andb_true_r. reflexivity.
Qed.

(** ** Reading the fields of a decoder *)
Definition field_ok (f : string * (Z * Z)) : bool := (0 <=? fst (snd f)) && (0 <=? snd (snd f)).
Lemma read_fields : forall w (fs : fields), forallb field_ok fs = true ->
  map_res (fun '(n, (i, size)) =>
      let* x := py_shr w i in let* b := bs_init (VInt x) (Some size) in Ok (n, b)) fs =
  Ok (map (fun '(n, (i, size)) => (n, bits size (fld w i size))) fs).
Proof.
  intros w fs H. unfold fields in *. induction fs as [|[n [i size]] fs IH]; [reflexivity|].
  cbn [forallb] in H. apply andb_prop in H. destruct H as [H1 H2]. unfold field_ok in H1. cbn [fst snd] in H1.
  cbn [map_res map]. rewrite IH by exact H2. unfold py_shr. replace (i <? 0) with false by lia. cbn [bind]. rewrite init_int by lia. cbn [bind].
  cbn [bind]. rewrite Z.shiftr_div_pow2 by lia. unfold fld. rewrite bits_mod_eq by lia. reflexivity.
Qed.
