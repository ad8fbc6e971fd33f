(** * Lemmas about building and searching the decoder tree *)
From Coq Require Import Lia ZifyBool Permutation Sorted.
From Verif Require Import DecoderModel SpecBits SpecArm SpecDecoder BitFacts BitOps BitText UtilFacts UtilThms ParseFacts.

(** ** Sorting by a key, generically *)
Section SortBy.
  Context {A : Type} (weight : A -> Z).
  Implicit Types (d x : A) (ds l : list A).
  Definition by_priority ds l : Prop :=
    (forall k, filter (fun d => weight d =? k) l = filter (fun d => weight d =? k) ds) /\
    StronglySorted (fun a b => weight b <= weight a) l.
  Fixpoint insw d l : list A :=
    match l with [] => [d] | y :: l' => if weight y <=? weight d then d :: l else y :: insw d l' end.
  Definition sortw ds := fold_right insw [] ds.

  Lemma insw_in : forall d l x, In x (insw d l) <-> x = d \/ In x l.
  Proof.
    intros d l x. induction l as [|y l IH]; cbn [insw In]; [intuition congruence|].
    destruct (weight y <=? weight d); cbn [In]; [intuition congruence|]. rewrite IH. intuition congruence.
  Qed.
  Lemma insw_sorted : forall d l, StronglySorted (fun a b => weight b <= weight a) l ->
    StronglySorted (fun a b => weight b <= weight a) (insw d l).
  Proof.
    intros d l S. induction S as [|y l S IH F]; [constructor; constructor|]. cbn [insw].
    destruct (weight y <=? weight d) eqn:E.
    - constructor; [constructor; assumption|]. constructor; [lia|]. rewrite Forall_forall in *. intros x Hx. specialize (F x Hx). lia.
    - constructor; [exact IH|]. rewrite Forall_forall in *. intros x Hx. apply insw_in in Hx. destruct Hx as [->|Hx]; [lia | exact (F x Hx)].
  Qed.
  Lemma insw_filter_sorted : forall d l k, StronglySorted (fun a b => weight b <= weight a) l ->
    filter (fun x => weight x =? k) (insw d l) = filter (fun x => weight x =? k) (d :: l).
  Proof.
    intros d l k S. induction S as [|y l S IH F]; [reflexivity|]. cbn [insw].
    destruct (weight y <=? weight d) eqn:E; [reflexivity|]. cbn [filter] in *. rewrite IH.
    destruct (Z.eqb_spec (weight d) k) as [Ek|Ek].
    - replace (weight y =? k) with false by lia. reflexivity.
    - reflexivity.
  Qed.

  Lemma sortw_priority : forall ds, by_priority ds (sortw ds).
  Proof.
    induction ds as [|d ds [IH1 IH2]]; [split; [reflexivity | constructor]|]. cbn [sortw fold_right].
    split; [|apply insw_sorted; exact IH2]. intro k. rewrite insw_filter_sorted by exact IH2. cbn [filter].
    fold (sortw ds). rewrite IH1. reflexivity.
  Qed.

  Lemma in_filter_weight : forall l x, In x l <-> In x (filter (fun y => weight y =? weight x) l).
  Proof. intros l x. rewrite filter_In, Z.eqb_refl. tauto. Qed.

  Lemma priority_unique : forall ds l l', by_priority ds l -> by_priority ds l' -> l = l'.
  Proof.
    intros ds l l' [F S] [F' S'].
    assert (E : forall k, filter (fun d => weight d =? k) l = filter (fun d => weight d =? k) l') by (intro k; rewrite F, F'; reflexivity).
    clear F F'. revert l' S' E. induction S as [|a l S IH Fa]; intros l' S' E.
    - destruct l' as [|b l']; [reflexivity|]. specialize (E (weight b)). cbn [filter] in E. rewrite Z.eqb_refl in E. discriminate.
    - destruct l' as [|b l'].
      + specialize (E (weight a)). cbn [filter] in E. rewrite Z.eqb_refl in E. discriminate.
      + inversion S' as [|? ? S'1 Fb]; subst.
        assert (Hb : In b (a :: l)) by (apply (proj2 (in_filter_weight _ _)); rewrite E; apply (proj1 (in_filter_weight _ _)); left; reflexivity).
        assert (Ha : In a (b :: l')) by (apply (proj2 (in_filter_weight _ _)); rewrite <- E; apply (proj1 (in_filter_weight _ _)); left; reflexivity).
        assert (W : weight a = weight b).
        { rewrite Forall_forall in Fa, Fb. destruct Hb as [->|Hb]; [reflexivity|]. destruct Ha as [->|Ha]; [reflexivity|].
          specialize (Fa b Hb). specialize (Fb a Ha). lia. }
        assert (Eab : a = b).
        { specialize (E (weight a)). cbn [filter] in E. rewrite <- W, Z.eqb_refl in E. congruence. }
        subst b. f_equal. apply IH; [exact S'1|]. intro k. specialize (E k). cbn [filter] in E.
        destruct (weight a =? k); congruence.
  Qed.

  Lemma priority_sort : forall ds l, by_priority ds l <-> l = sortw ds.
  Proof.
    intros ds l. split; [intro P; exact (priority_unique _ _ _ P (sortw_priority ds)) | intros ->; apply sortw_priority].
  Qed.
  Lemma sorted_sort : forall l, StronglySorted (fun a b => weight b <= weight a) l -> sortw l = l.
  Proof. intros l S. symmetry. apply priority_sort. split; [reflexivity | exact S]. Qed.
  Lemma sortw_sorted : forall ds, StronglySorted (fun a b => weight b <= weight a) (sortw ds).
  Proof. intro ds. apply sortw_priority. Qed.
  Lemma sortw_in : forall ds x, In x (sortw ds) <-> In x ds.
  Proof.
    induction ds as [|d ds IH]; intro x; [reflexivity|]. cbn [sortw fold_right]. rewrite insw_in. fold (sortw ds).
    rewrite IH. cbn [In]. intuition congruence.
  Qed.
  Lemma insw_perm : forall d l, Permutation (insw d l) (d :: l).
  Proof.
    intros d l. induction l as [|y l IH]; [reflexivity|]. cbn [insw]. destruct (weight y <=? weight d); [reflexivity|].
    rewrite IH. apply perm_swap.
  Qed.
  Lemma sortw_perm : forall ds, Permutation (sortw ds) ds.
  Proof.
    induction ds as [|d ds IH]; [reflexivity|]. cbn [sortw fold_right]. rewrite insw_perm. fold (sortw ds). rewrite IH. reflexivity.
  Qed.
  Lemma sortw_length : forall ds, List.length (sortw ds) = List.length ds.
  Proof. intro ds. apply Permutation_length, sortw_perm. Qed.

  Lemma filter_sorted : forall P l, StronglySorted (fun a b => weight b <= weight a) l ->
    StronglySorted (fun a b => weight b <= weight a) (filter P l).
  Proof.
    intros P l S. induction S as [|a l S IH F]; [constructor|]. cbn [filter]. destruct (P a); [|exact IH].
    constructor; [exact IH|]. rewrite Forall_forall in *. intros x Hx. apply filter_In in Hx. apply F, Hx.
  Qed.


End SortBy.
Section SortDecoders.
  Context {H : Type} (weight : decoder H -> Z).
  Lemma sort_keyed : forall ds,
    map snd (fold_right insert_by [] (map (fun d => (weight d, d)) ds)) = sortw weight ds.
  Proof.
    assert (I : forall d l, insert_by (weight d, d) (map (fun d => (weight d, d)) l) = map (fun d => (weight d, d)) (insw weight d l)).
    { intros d. induction l as [|y l IH]; [reflexivity|]. cbn [map insert_by insw fst].
      destruct (weight y <=? weight d); [reflexivity|]. cbn [map]. rewrite IH. reflexivity. }
    intro ds.
    assert (G : fold_right insert_by [] (map (fun d => (weight d, d)) ds) = map (fun d => (weight d, d)) (sortw weight ds)).
    { induction ds as [|d ds IH]; [reflexivity|]. cbn [map fold_right sortw]. rewrite IH. apply I. }
    rewrite G, map_map. cbn [snd]. apply map_id.
  Qed.
End SortDecoders.

Section Tree.
  Context {H : Type}.
  Implicit Types (d : decoder H) (ds l : list (decoder H)).

  (** ** Decoders made by the constructor *)
  Definition dec_ok d : Prop := 0 <= d_mask d < 2 ^ 32 /\ Z.land (d_match d) (d_mask d) = d_match d.

  Lemma match_in_mask : forall L, Forall item_ok L -> Z.land (le_match L) (le_mask L) = le_match L.
  Proof.
    intros L HL. induction HL as [|f L Hf HL IH]; [apply Z.land_0_r|].
    apply check_head; [exact Hf | exact HL|]. cbn [le_match].
    destruct (glue_div _ _ (le_match L) (item_match_bound f Hf)) as [E1 E2]. rewrite E1, E2. split; [|exact IH].
    destruct f; cbn [item_agrees]; [reflexivity | exact I | reflexivity].
  Qed.

  Lemma made_ok : forall d, made d -> dec_ok d.
  Proof.
    intros d [h [mn [k [s [s2 [kw E]]]]]]. apply make_inv in E. destruct E as [L [O [Ht [E1 [E2 _]]]]].
    unfold dec_ok. rewrite E1, E2. split; [|apply match_in_mask; exact O].
    pose proof (le_mask_bound L O) as B. split; [lia|]. apply Z.lt_le_trans with (1 := proj2 B).
    apply pow2_le. lia.
  Qed.

  Lemma check_matches : forall d w, dec_ok d -> check d w = true <-> matches d w.
  Proof.
    intros d w [B E]. unfold check, matches. rewrite Z.eqb_eq. split.
    - intros Ec i Hi Hm. rewrite <- Ec, Z.land_spec, Hm, andb_true_r. reflexivity.
    - intro Hm. apply Z.bits_inj'. intros i Hi. rewrite Z.land_spec. specialize (Hm i Hi).
      assert (Ei : Z.testbit (d_match d) i = Z.testbit (d_match d) i && Z.testbit (d_mask d) i).
      { rewrite <- E at 1. apply Z.land_spec. }
      destruct (Z.testbit (d_mask d) i).
      + rewrite Hm by reflexivity. rewrite andb_true_r in *. reflexivity.
      + rewrite andb_false_r in *. symmetry. exact Ei.
  Qed.

  (** ** Sorting *)
  Lemma ones_popcount : forall v, ones_below 32 v = popcount v.
  Proof.
    intro v. unfold popcount, py_range. change (Z.to_nat 32) with 32%nat.
    assert (G : forall n, ones_below n v = Z.of_nat (List.length (filter (Z.testbit v) (map Z.of_nat (seq 0 n))))); [|apply G].
    induction n as [|n IH]; [reflexivity|]. rewrite seq_S, map_app, filter_app, app_length. cbn [plus map filter ones_below].
    destruct (Z.testbit v (Z.of_nat n)); cbn [List.length]; unfold b2z in *; lia.
  Qed.
  Lemma hamming_weight_ok : forall d, dec_ok d -> hamming_weight (d_mask d) = Ok (weight d).
  Proof.
    intros d [B _]. rewrite (C22_hamming_proof (d_mask d) 32) by (lia || exact B). f_equal. apply ones_popcount.
  Qed.

  Lemma sort_ok : forall ds, Forall dec_ok ds -> sort_decoders ds = Ok (sortw weight ds).
  Proof.
    intros ds O. unfold sort_decoders.
    assert (E : map_res (fun d => let* w := hamming_weight (d_mask d) in Ok (w, d)) ds = Ok (map (fun d => (weight d, d)) ds)).
    { induction O as [|d ds Od O IH]; [reflexivity|]. cbn [map_res]. rewrite hamming_weight_ok by exact Od. cbn [bind].
      rewrite IH. reflexivity. }
    rewrite E. cbn [bind]. f_equal. apply sort_keyed.
  Qed.

  (** ** Scanning *)
  Variable call : pyver -> H -> insn -> list (string * bs) -> res insn.

  Fixpoint scan (py : pyver) (w a : Z) l : option (res insn) :=
    match l with
    | [] => None
    | d :: l' =>
      if check d w then
        match decode_one call py d w a with Err DecodeError => scan py w a l' | r => Some r end
      else scan py w a l'
    end.

  Lemma try_scan : forall py w a l, try_decoders call py l w a =
    match scan py w a l with Some r => r | None => Err UndefinedInstructionError end.
  Proof.
    intros py w a l. induction l as [|d l IH]; [reflexivity|]. cbn [try_decoders scan].
    destruct (check d w); [|exact IH]. destruct (decode_one call py d w a) as [i|[]]; try reflexivity. exact IH.
  Qed.

  Lemma first_scan : forall py w a l o, Forall dec_ok l -> first_of call py w a l o -> scan py w a l = o.
  Proof.
    intros py w a l o O F. induction F as [|d l o N F IH|d l o M E F IH|d l M N]; [reflexivity| | |].
    - inversion O as [|? ? O1 O2]; subst. cbn [scan]. destruct (check d w) eqn:C; [exfalso; apply N; apply check_matches; assumption|].
      exact (IH O2).
    - inversion O as [|? ? O1 O2]; subst. cbn [scan]. apply check_matches in M; [|exact O1]. rewrite M, E. exact (IH O2).
    - inversion O as [|? ? O1 O2]; subst. cbn [scan]. apply check_matches in M; [|exact O1]. rewrite M.
      destruct (decode_one call py d w a) as [i|[]]; try reflexivity. congruence.
  Qed.
  Lemma scan_first : forall py w a l, Forall dec_ok l -> first_of call py w a l (scan py w a l).
  Proof.
    intros py w a l O. induction O as [|d l Od O IH]; [constructor|]. cbn [scan].
    destruct (check d w) eqn:C.
    - apply check_matches in C; [|exact Od].
      destruct (decode_one call py d w a) as [i|e] eqn:E.
      + rewrite <- E. apply first_taken; [exact C | rewrite E; discriminate].
      + destruct e; try (rewrite <- E; apply first_taken; [exact C | rewrite E; discriminate]).
        apply first_declined; assumption.
    - apply first_no_match; [|exact IH]. rewrite <- check_matches by exact Od. rewrite C. discriminate.
  Qed.

  (** ** The common mask *)
  Definition key (mask : Z) d : Z := Z.land (d_match d) mask.

  Lemma fold_land : forall ds m, fold_left (fun a d => Z.land a (d_mask d)) ds m =
    Z.land m (fold_left (fun a d => Z.land a (d_mask d)) ds (-1)).
  Proof.
    induction ds as [|d ds IH]; intro m; cbn [fold_left]; [rewrite Z.land_m1_r; reflexivity|].
    rewrite (IH (Z.land m (d_mask d))), (IH (Z.land (-1) (d_mask d))), Z.land_m1_l, Z.land_assoc. reflexivity.
  Qed.
  Definition all_masks ds : Z := fold_left (fun a d => Z.land a (d_mask d)) ds (-1).
  Lemma all_masks_cons : forall d ds, all_masks (d :: ds) = Z.land (d_mask d) (all_masks ds).
  Proof. intros d ds. unfold all_masks. cbn [fold_left]. rewrite fold_land, Z.land_m1_l. reflexivity. Qed.
  Lemma common_all : forall ds, ds <> [] -> common_mask ds = all_masks ds.
  Proof. intros [|d ds] N; [congruence|]. rewrite all_masks_cons. unfold common_mask. apply fold_land. Qed.
  Lemma all_masks_perm : forall a b, Permutation a b -> all_masks a = all_masks b.
  Proof.
    intros a b P. induction P as [|x a b P IH|x y a|a b c P1 IH1 P2 IH2]; [reflexivity| | |congruence].
    - rewrite !all_masks_cons, IH. reflexivity.
    - rewrite !all_masks_cons, !Z.land_assoc, (Z.land_comm (d_mask x)). reflexivity.
  Qed.
  Lemma common_perm : forall a b : list (decoder H), Permutation a b -> common_mask a = common_mask b.
  Proof.
    intros a b P. destruct a as [|x a].
    - apply Permutation_nil in P. subst. reflexivity.
    - rewrite !common_all; [apply all_masks_perm; exact P | |discriminate].
      intros ->. apply Permutation_sym, Permutation_nil in P. discriminate.
  Qed.
  Lemma all_masks_sub : forall ds d, In d ds -> Z.land (d_mask d) (all_masks ds) = all_masks ds.
  Proof.
    induction ds as [|x ds IH]; intros d Hd; [destruct Hd|]. rewrite all_masks_cons. destruct Hd as [->|Hd].
    - rewrite Z.land_assoc, Z.land_diag. reflexivity.
    - rewrite Z.land_assoc, (Z.land_comm (d_mask d)), <- Z.land_assoc, IH by exact Hd. reflexivity.
  Qed.

  Lemma check_key : forall ds d w, In d ds -> check d w = true ->
    key (all_masks ds) d = Z.land w (all_masks ds).
  Proof.
    intros ds d w Hd C. unfold check in C. apply Z.eqb_eq in C. unfold key. rewrite <- C, <- Z.land_assoc, all_masks_sub by exact Hd.
    reflexivity.
  Qed.

  Lemma scan_filter : forall py w a l (P : decoder H -> bool), (forall d, In d l -> check d w = true -> P d = true) ->
    scan py w a (filter P l) = scan py w a l.
  Proof.
    intros py w a l P. induction l as [|d l IH]; intro E; [reflexivity|].
    assert (IH' : scan py w a (filter P l) = scan py w a l) by (apply IH; intros x Hx; apply E; right; exact Hx).
    cbn [filter scan]. destruct (check d w) eqn:C.
    - rewrite (E d (or_introl eq_refl) C). cbn [scan]. rewrite C, IH'. reflexivity.
    - destruct (P d); [cbn [scan]; rewrite C|]; exact IH'.
  Qed.

  (** ** Groups *)
  Lemma add_get : forall k d (g : list (Z * list (decoder H))) k', dict_get Z.eqb k' (add_to_group k d g) =
    if k' =? k then Some (match dict_get Z.eqb k' g with Some l => l ++ [d] | None => [d] end) else dict_get Z.eqb k' g.
  Proof.
    intros k d g k'. induction g as [|[k1 l1] g IH]; cbn [add_to_group dict_get].
    - destruct (k' =? k); reflexivity.
    - destruct (Z.eqb_spec k k1) as [E|E]; cbn [dict_get].
      + destruct (Z.eqb_spec k' k1), (Z.eqb_spec k' k); try congruence; reflexivity.
      + rewrite IH. destruct (Z.eqb_spec k' k1), (Z.eqb_spec k' k); try congruence; reflexivity.
  Qed.
  Lemma add_keys : forall k d (g : list (Z * list (decoder H))), NoDup (map fst g) -> NoDup (map fst (add_to_group k d g)) /\
    (forall x, In x (map fst (add_to_group k d g)) <-> x = k \/ In x (map fst g)).
  Proof.
    intros k d g N. induction g as [|[k1 l1] g IH]; cbn [add_to_group map fst].
    - split; [constructor; [intros []|constructor] | intro x; cbn [In]; intuition congruence].
    - inversion N as [|? ? N1 N2]; subst. destruct (IH N2) as [I1 I2].
      destruct (Z.eqb_spec k k1) as [E|E]; cbn [map fst].
      + split; [constructor; assumption|]. intro x; cbn [In]; intuition congruence.
      + split.
        * constructor; [|exact I1]. rewrite I2. intuition congruence.
        * intro x. cbn [In]. rewrite I2. intuition congruence.
  Qed.

  Definition groups_of (mask : Z) (p : list (decoder H)) (g : list (Z * list (decoder H))) : Prop :=
    NoDup (map fst g) /\
    forall k, dict_get Z.eqb k g = match filter (fun d => key mask d =? k) p with [] => None | l => Some l end.

  Lemma group_ok : forall mask l, groups_of mask l (group_by_match mask l).
  Proof.
    intros mask l. unfold group_by_match.
    assert (G : forall l p g, groups_of mask p g ->
       groups_of mask (p ++ l) (fold_left (fun g d => add_to_group (Z.land (d_match d) mask) d g) l g)).
    { clear l. induction l as [|d l IH]; intros p g Hg; [rewrite app_nil_r; exact Hg|]. cbn [fold_left].
      replace (p ++ d :: l) with ((p ++ [d]) ++ l) by (rewrite <- app_assoc; reflexivity).
      apply IH. destruct Hg as [N E]. split; [apply add_keys; exact N|]. intro k.
      rewrite add_get, E, filter_app. cbn [filter]. fold (key mask d).
      destruct (Z.eqb_spec k (key mask d)) as [Ek|Ek].
      - rewrite Ek, Z.eqb_refl. destruct (filter (fun d0 => key mask d0 =? key mask d) p); reflexivity.
      - replace (key mask d =? k) with false by lia. rewrite app_nil_r. reflexivity. }
    apply (G l [] []). split; [constructor | intro k; reflexivity].
  Qed.

  Lemma get_in : forall (V : Type) (g : list (Z * V)) k v, NoDup (map fst g) -> In (k, v) g -> dict_get Z.eqb k g = Some v.
  Proof.
    intros V g k v. induction g as [|[k1 v1] g IH]; intros N I; [destruct I|]. inversion N as [|? ? N1 N2]; subst.
    cbn [dict_get]. destruct I as [I|I].
    - injection I as -> ->. rewrite Z.eqb_refl. reflexivity.
    - destruct (Z.eqb_spec k k1) as [->|E]; [|exact (IH N2 I)]. exfalso. apply N1.
      apply in_map_iff. exists (k1, v). split; [reflexivity | exact I].
  Qed.
  Lemma in_get : forall (V : Type) (g : list (Z * V)) k v, dict_get Z.eqb k g = Some v -> In (k, v) g.
  Proof.
    intros V g k v. induction g as [|[k1 v1] g IH]; intro E; [discriminate|]. cbn [dict_get] in E.
    destruct (Z.eqb_spec k k1) as [->|N]; [left; congruence | right; exact (IH E)].
  Qed.

  (** ** The tree *)
  Fixpoint miss (fuel : nat) l (w : Z) : exc :=
    match fuel with
    | O => OutOfFuel
    | S f =>
      match l with
      | [] | [_] => UndefinedInstructionError
      | d0 :: _ =>
        let mask := common_mask l in
        if mask =? 0 then UndefinedInstructionError else
        if forallb (fun d => key mask d =? key mask d0) l then UndefinedInstructionError else
        match filter (fun d => key mask d =? Z.land w mask) l with
        | [] => AttributeError
        | g => miss f g w
        end
      end
    end.

  Definition outcome (py : pyver) (w a : Z) (f : nat) l : res insn :=
    match scan py w a l with Some r => r | None => Err (miss f l w) end.

  Lemma decode_node : forall py mask ch w a,
    snd (tree_decode call py (Node mask ch) w a) =
    match dict_get Z.eqb (Z.land w mask) ch with Some t => snd (tree_decode call py t w a) | None => Err AttributeError end.
  Proof.
    intros py mask ch w a. cbn [tree_decode].
    set (go := fix go (ch : list (Z * tree H)) : list (Z * tree H) * res insn := _).
    assert (G : forall ch, snd (go ch) = match dict_get Z.eqb (Z.land w mask) ch with
                 Some t => snd (tree_decode call py t w a) | None => Err AttributeError end).
    { clear ch. induction ch as [|[k t] ch IH]; [reflexivity|]. cbn [dict_get]. unfold go. fold go.
      destruct (Z.land w mask =? k).
      - destruct (tree_decode call py t w a); reflexivity.
      - rewrite <- IH. destruct (go ch); reflexivity. }
    rewrite <- G. destruct (go ch); reflexivity.
  Qed.

  Lemma filter_len : forall (A : Type) (P : A -> bool) (l : list A), (List.length (filter P l) <= List.length l)%nat.
  Proof. induction l as [|x l IH]; cbn [filter]; [reflexivity|]. destruct (P x); cbn [List.length]; lia. Qed.
  Lemma filter_shorter : forall (A : Type) (P : A -> bool) (l : list A) x, In x l -> P x = false -> (List.length (filter P l) < List.length l)%nat.
  Proof.
    induction l as [|y l IH]; intros x I E; [destruct I|]. cbn [filter]. pose proof (filter_len A P l).
    destruct I as [->|I]; [rewrite E; cbn [List.length]; lia|]. specialize (IH x I E).
    destruct (P y); cbn [List.length]; lia.
  Qed.
  Lemma filter_all : forall (A : Type) (P : A -> bool) (l : list A), (forall x, In x l -> P x = true) -> filter P l = l.
  Proof.
    induction l as [|y l IH]; intro E; [reflexivity|]. cbn [filter]. rewrite (E y) by (left; reflexivity).
    rewrite IH; [reflexivity | intros x Hx; apply E; right; exact Hx].
  Qed.
  Lemma filter_in_ok : forall (P : decoder H -> bool) l, Forall dec_ok l -> Forall dec_ok (filter P l).
  Proof. intros P l O. rewrite Forall_forall in *. intros x Hx. apply filter_In in Hx. apply O, Hx. Qed.

  Lemma build_children : forall f (g : list (Z * list (decoder H))),
    (forall k l, In (k, l) g -> exists t, build_tree f l = Ok t) ->
    exists ch, map_res (fun '(k, l) => let* t := build_tree f l in Ok (k, t)) g = Ok ch /\
      forall k, match dict_get Z.eqb k g with
                | Some l => exists t, dict_get Z.eqb k ch = Some t /\ build_tree f l = Ok t
                | None => dict_get Z.eqb k ch = None end.
  Proof.
    intros f. induction g as [|[k l] g IH]; intro E; [exists []; split; reflexivity|].
    destruct (E k l) as [t Et]; [left; reflexivity|].
    destruct IH as [ch [Ec Hc]]; [intros k' l' I; apply (E k' l'); right; exact I|].
    exists ((k, t) :: ch). split.
    - cbn [map_res]. rewrite Et. cbn [bind]. rewrite Ec. reflexivity.
    - intro k'. cbn [dict_get]. destruct (k' =? k); [exists t; split; [reflexivity | exact Et] | apply Hc].
  Qed.

  Lemma build_ok : forall f l, (List.length l < f)%nat -> Forall dec_ok l -> StronglySorted (fun a b => weight b <= weight a) l ->
    exists t, build_tree f l = Ok t /\ forall py w a, snd (tree_decode call py t w a) = outcome py w a f l.
  Proof.
    induction f as [|f IH]; intros l Hl O S; [lia|].
    assert (Leaf_ok : forall fu, (forall w, miss (Datatypes.S fu) l w = UndefinedInstructionError) ->
      forall py w a, snd (tree_decode call py (Leaf l) w a) = outcome py w a (Datatypes.S fu) l).
    { intros fu M py w a. cbn [tree_decode snd]. unfold outcome. rewrite try_scan, M. reflexivity. }
    cbn [build_tree]. rewrite sort_ok by exact O. cbn [bind]. rewrite (sorted_sort weight l S).
    destruct l as [|d0 [|d1 l0]]; [exists (Leaf []); split; [reflexivity | apply Leaf_ok; reflexivity]
                                  |exists (Leaf [d0]); split; [reflexivity | apply Leaf_ok; reflexivity]|].
    set (l := d0 :: d1 :: l0) in *.
    destruct (Z.eqb_spec (common_mask l) 0) as [Ez|Ez].
    { exists (Leaf l). split; [reflexivity|]. apply Leaf_ok. intro w. unfold l at 1. cbn [miss]. fold l. rewrite Ez. reflexivity. }
    set (mask := common_mask l) in *.
    assert (Emask : mask = all_masks l) by (apply common_all; discriminate).
    pose proof (group_ok mask l) as [GN GG].
    destruct (group_by_match mask l) as [|[k1 g1] [|[k2 g2] g]] eqn:Eg.
    - exfalso. specialize (GG (key mask d0)). cbn [dict_get] in GG. unfold l in GG. cbn [filter] in GG. rewrite Z.eqb_refl in GG. discriminate.
    - assert (All : forall x, In x l -> key mask x = k1).
      { intros x Hx. specialize (GG (key mask x)). cbn [dict_get] in GG.
        destruct (Z.eqb_spec (key mask x) k1) as [E|E]; [exact E|]. exfalso.
        assert (Hf : In x (filter (fun d => key mask d =? key mask x) l)) by (apply filter_In; split; [exact Hx | apply Z.eqb_refl]).
        destruct (filter (fun d => key mask d =? key mask x) l); [destruct Hf | discriminate]. }
      assert (Eg1 : g1 = l).
      { specialize (GG k1). cbn [dict_get] in GG. rewrite Z.eqb_refl in GG.
        rewrite filter_all in GG by (intros x Hx; rewrite (All x Hx); apply Z.eqb_refl). unfold l in GG. fold l in GG. congruence. }
      subst g1. exists (Leaf l). split; [reflexivity|]. apply Leaf_ok. intro w. unfold l at 1. cbn [miss]. fold l. fold mask.
      replace (mask =? 0) with false by lia.
      replace (forallb (fun d => key mask d =? key mask d0) l) with true; [reflexivity|]. symmetry. apply forallb_forall.
      intros x Hx. rewrite (All x Hx), (All d0) by (left; reflexivity). apply Z.eqb_refl.
    - set (G := (k1, g1) :: (k2, g2) :: g) in *.
      assert (GI : forall k l', In (k, l') G -> l' = filter (fun d => key mask d =? k) l /\ l' <> []).
      { intros k l' I. apply (get_in _ _ _ _ GN) in I. rewrite GG in I.
        destruct (filter (fun d => key mask d =? k) l) as [|x r]; [discriminate|]. injection I as <-. split; [reflexivity | discriminate]. }
      assert (Two : exists x y, In x l /\ In y l /\ key mask x <> key mask y).
      { destruct (GI k1 g1) as [E1 N1]; [left; reflexivity|]. destruct (GI k2 g2) as [E2 N2]; [right; left; reflexivity|].
        destruct g1 as [|x g1']; [congruence|]. destruct g2 as [|y g2']; [congruence|]. exists x, y.
        assert (Hx : In x (filter (fun d => key mask d =? k1) l)) by (rewrite <- E1; left; reflexivity).
        assert (Hy : In y (filter (fun d => key mask d =? k2) l)) by (rewrite <- E2; left; reflexivity).
        apply filter_In in Hx, Hy. destruct Hx as [Hx1 Hx2]. destruct Hy as [Hy1 Hy2].
        split; [exact Hx1 | split; [exact Hy1|]]. inversion GN as [|? ? N _]; subst. cbn [map fst In] in N. lia. }
      assert (Short : forall k, (List.length (filter (fun d => (key mask d =? k)%Z) l) < f)%nat).
      { intro k. destruct Two as [x [y [Hx [Hy N]]]].
        assert (L : (List.length (filter (fun d => (key mask d =? k)%Z) l) < List.length l)%nat).
        { destruct (Z.eqb_spec (key mask x) k) as [E|E].
          - apply (filter_shorter _ _ l y Hy). lia.
          - apply (filter_shorter _ _ l x Hx). lia. }
        lia. }
      assert (Sub : forall k l', In (k, l') G -> exists t, build_tree f l' = Ok t).
      { intros k l' I. destruct (GI k l' I) as [-> _].
        destruct (IH _ (Short k) (filter_in_ok _ _ O) (filter_sorted weight _ _ S)) as [t [Et _]]. exists t. exact Et. }
      destruct (build_children f G Sub) as [ch [Ec Hc]].
      exists (Node mask ch). split; [rewrite Ec; reflexivity|].
      intros py w a. rewrite decode_node. unfold outcome.
      assert (M : miss (Datatypes.S f) l w = match filter (fun d => key mask d =? Z.land w mask) l with [] => AttributeError | g => miss f g w end).
      { unfold l at 1. cbn [miss]. fold l. fold mask. replace (mask =? 0) with false by lia.
        replace (forallb (fun d => key mask d =? key mask d0) l) with false; [reflexivity|]. symmetry.
        apply not_true_is_false. intro C. rewrite forallb_forall in C. destruct Two as [x [y [Hx [Hy N]]]].
        pose proof (C x Hx). pose proof (C y Hy). lia. }
      rewrite M. rewrite <- (scan_filter py w a l (fun d => key mask d =? Z.land w mask)).
      2:{ intros d Hd C. rewrite Emask. apply Z.eqb_eq. apply check_key; assumption. }
      specialize (Hc (Z.land w mask)). rewrite GG in Hc.
      destruct (IH _ (Short (Z.land w mask)) (filter_in_ok _ _ O) (filter_sorted weight _ _ S)) as [t [Et Ht]].
      destruct (filter (fun d => key mask d =? Z.land w mask) l) as [|x r] eqn:Ef.
      + rewrite Hc. reflexivity.
      + destruct Hc as [t' [Eg' Et']]. rewrite Eg'. assert (t' = t) by congruence. subst t'. rewrite Ht. reflexivity.
  Qed.

  Lemma build_sorted : forall f ds, Forall dec_ok ds -> build_tree f ds = build_tree f (sortw weight ds).
  Proof.
    intros [|f] ds O; [reflexivity|]. cbn [build_tree]. rewrite sort_ok by exact O.
    rewrite sort_ok; [|rewrite Forall_forall in *; intros x Hx; apply O; rewrite <- sortw_in; exact Hx].
    rewrite (sorted_sort weight (sortw weight ds)) by apply sortw_sorted. reflexivity.
  Qed.
  Lemma sortw_ok : forall ds, Forall dec_ok ds -> Forall dec_ok (sortw weight ds).
  Proof. intros ds O. rewrite Forall_forall in *. intros x Hx. apply O. rewrite <- sortw_in. exact Hx. Qed.

  Lemma build_any : forall f ds, (List.length ds < f)%nat -> Forall dec_ok ds ->
    exists t, build_tree f ds = Ok t /\
      forall py w a, snd (tree_decode call py t w a) = outcome py w a f (sortw weight ds).
  Proof.
    intros f ds Hl O. rewrite build_sorted by exact O. apply build_ok.
    - rewrite sortw_length. exact Hl.
    - apply sortw_ok. exact O.
    - apply sortw_sorted.
  Qed.

  (** More fuel does not change the tree. *)
  Lemma build_fuel : forall f f' ds t, build_tree f ds = Ok t -> (f <= f')%nat -> build_tree f' ds = Ok t.
  Proof.
    induction f as [|f IH]; intros f' ds t E L; [discriminate|]. destruct f' as [|f']; [lia|].
    cbn [build_tree] in *. destruct (sort_decoders ds) as [l|e]; [|discriminate]. cbn [bind] in *.
    destruct l as [|d0 [|d1 l0]]; try exact E.
    destruct (common_mask (d0 :: d1 :: l0) =? 0); [exact E|].
    destruct (group_by_match (common_mask (d0 :: d1 :: l0)) (d0 :: d1 :: l0)) as [|[k1 g1] [|[k2 g2] g]]; try exact E.
    match type of E with context [map_res _ ?G] => destruct (map_res (fun '(k, l) => let* t := build_tree f l in Ok (k, t)) G) as [c|e] eqn:Ec end;
        cbn [bind] in E; [|discriminate].
      match goal with |- context [map_res ?F ?G] => assert (M : map_res F G = Ok c) end.
      { revert c Ec E. generalize ((k1, g1) :: (k2, g2) :: g). intros G c Ec _. revert c Ec.
        induction G as [|[k l] G IHG]; intros c Ec; [exact Ec|]. cbn [map_res] in *.
        destruct (build_tree f l) as [t1|e] eqn:E1; cbn [bind] in Ec; [|discriminate].
        rewrite (IH f' l t1 E1) by lia. cbn [bind].
        destruct (map_res (fun '(k, l) => let* t := build_tree f l in Ok (k, t)) G) as [c'|e]; cbn [bind] in Ec; [|discriminate].
        rewrite (IHG c' eq_refl). cbn [bind]. exact Ec. }
      rewrite M. exact E.
  Qed.

  Lemma miss_cases : forall f l w, (List.length l < f)%nat ->
    miss f l w = UndefinedInstructionError \/ miss f l w = AttributeError.
  Proof.
    induction f as [|f IH]; intros l w Hl; [lia|]. cbn [miss]. destruct l as [|d0 [|d1 l0]]; [left; reflexivity | left; reflexivity|].
    set (l := d0 :: d1 :: l0) in *. destruct (common_mask l =? 0); [left; reflexivity|].
    destruct (forallb (fun d => key (common_mask l) d =? key (common_mask l) d0) l) eqn:E; [left; reflexivity|].
    destruct (filter (fun d => key (common_mask l) d =? Z.land w (common_mask l)) l) as [|x r] eqn:Ef; [right; reflexivity|].
    apply IH. rewrite <- Ef.
    assert (N : exists y, In y l /\ key (common_mask l) y <> key (common_mask l) d0).
    { revert E. generalize (common_mask l) as m. generalize l as L. clear. intros L m. induction L as [|y L IH]; intro E; [discriminate|].
      cbn [forallb] in E. destruct (Z.eqb_spec (key m y) (key m d0)) as [K|K].
      - destruct (IH E) as [z [Hz Nz]]. exists z. split; [right; exact Hz | exact Nz].
      - exists y. split; [left; reflexivity | exact K]. }
    destruct N as [y [Hy Ny]].
    assert (Hd0 : In d0 l) by (left; reflexivity).
    assert (L : (List.length (filter (fun d => (key (common_mask l) d =? Z.land w (common_mask l))%Z) l) < List.length l)%nat).
    { destruct (Z.eqb_spec (key (common_mask l) d0) (Z.land w (common_mask l))) as [K|K].
      - apply (filter_shorter _ _ l y Hy). lia.
      - apply (filter_shorter _ _ l d0 Hd0). lia. }
    lia.
  Qed.

  Lemma perm_filter : forall (A : Type) (P : A -> bool) (a b : list A), Permutation a b -> Permutation (filter P a) (filter P b).
  Proof.
    intros A P a b E. induction E as [|x a b E IH|x y a|a b c E1 IH1 E2 IH2]; cbn [filter]; [reflexivity| | |exact (perm_trans IH1 IH2)].
    - destruct (P x); [constructor; exact IH | exact IH].
    - destruct (P x), (P y); try reflexivity. apply perm_swap.
  Qed.

  Lemma miss_perm : forall f (l l' : list (decoder H)) w, Permutation l l' -> miss f l w = miss f l' w.
  Proof.
    induction f as [|f IH]; intros l l' w P; [reflexivity|]. pose proof (Permutation_length P) as L. cbn [miss].
    destruct l as [|d0 [|d1 l0]]; destruct l' as [|e0 [|e1 l0']]; try discriminate L; try reflexivity.
    rewrite <- (common_perm _ _ P).
    set (l := d0 :: d1 :: l0) in *. set (l' := e0 :: e1 :: l0') in *. set (m := common_mask l) in *.
    destruct (m =? 0); [reflexivity|].
    assert (E : forallb (fun d => key m d =? key m d0) l = forallb (fun d => key m d =? key m e0) l').
    { apply eq_true_iff_eq. rewrite !forallb_forall.
      assert (In d0 l') by (apply (Permutation_in _ P); left; reflexivity).
      assert (In e0 l) by (apply (Permutation_in _ (Permutation_sym P)); left; reflexivity).
      split; intros F x Hx.
      - pose proof (F x (Permutation_in _ (Permutation_sym P) Hx)). pose proof (F e0 ltac:(assumption)). lia.
      - pose proof (F x (Permutation_in _ P Hx)). pose proof (F d0 ltac:(assumption)). lia. }
    rewrite E. destruct (forallb (fun d => key m d =? key m e0) l'); [reflexivity|].
    pose proof (perm_filter _ (fun d => key m d =? Z.land w m) _ _ P) as Pf.
    destruct (filter (fun d => key m d =? Z.land w m) l) as [|x r]; destruct (filter (fun d => key m d =? Z.land w m) l') as [|x' r'].
    - reflexivity.
    - apply Permutation_nil in Pf. discriminate.
    - apply Permutation_sym, Permutation_nil in Pf. discriminate.
    - apply IH. exact Pf.
  Qed.

  (** ** Permutations of the registrations *)
  Definition effective (py : pyver) (w a : Z) d : bool :=
    check d w && match decode_one call py d w a with Err DecodeError => false | _ => true end.
  Lemma scan_effective : forall py w a l,
    scan py w a l = match filter (effective py w a) l with [] => None | d :: _ => Some (decode_one call py d w a) end.
  Proof.
    intros py w a l. induction l as [|d l IH]; [reflexivity|]. cbn [scan filter]. unfold effective at 1.
    destruct (check d w); [|exact IH]. cbn [andb].
    destruct (decode_one call py d w a) as [i|[]] eqn:E; try exact IH; rewrite E; reflexivity.
  Qed.
End Tree.

Section SortUnique.
  Context {A : Type} (weight : A -> Z).
  Lemma sorted_perm_unique : forall l l' : list A, Permutation l l' -> NoDup (map weight l) ->
    StronglySorted (fun a b => weight b <= weight a) l -> StronglySorted (fun a b => weight b <= weight a) l' -> l = l'.
  Proof.
    intros l l' P N S. revert l' P. induction S as [|x l S IH F]; intros l' P S'.
    - apply Permutation_nil in P. symmetry. exact P.
    - destruct l' as [|y l']; [apply Permutation_sym, Permutation_nil in P; discriminate|].
      inversion S' as [|? ? S1 F1]; subst. inversion N as [|? ? N1 N2]; subst. rewrite Forall_forall in F, F1.
      assert (Hx : In x (y :: l')) by (apply (Permutation_in _ P); left; reflexivity).
      assert (Hy : In y (x :: l)) by (apply (Permutation_in _ (Permutation_sym P)); left; reflexivity).
      assert (E : x = y).
      { destruct Hy as [->|Hy]; [reflexivity|]. destruct Hx as [->|Hx]; [reflexivity|].
        specialize (F y Hy). specialize (F1 x Hx). exfalso. apply N1. replace (weight x) with (weight y) by lia.
        apply in_map. exact Hy. }
      subst y. f_equal. apply IH; [exact N2 | exact (Permutation_cons_inv P) | exact S1].
  Qed.

  Lemma nodup_pairs : forall l : list A, ForallOrdPairs (fun a b => weight a <> weight b) l -> NoDup (map weight l).
  Proof.
    intros l F. induction F as [|x l Fx F IH]; [constructor|]. cbn [map]. constructor; [|exact IH].
    rewrite in_map_iff. intros [y [E Hy]]. rewrite Forall_forall in Fx. apply (Fx y Hy). symmetry. exact E.
  Qed.
  Lemma pairs_filter : forall (R : A -> A -> Prop) (P : A -> bool) (l : list A),
    ForallOrdPairs (fun a b => P a = true -> P b = true -> R a b) l -> ForallOrdPairs R (filter P l).
  Proof.
    intros R P l F. induction F as [|x l Fx F IH]; [constructor|]. cbn [filter]. destruct (P x) eqn:E; [|exact IH].
    constructor; [|exact IH]. rewrite Forall_forall in *. intros y Hy. apply filter_In in Hy.
    exact (Fx y (proj1 Hy) eq_refl (proj2 Hy)).
  Qed.
End SortUnique.

Section TreeMore.
  Context {H : Type}.
  Variable call : pyver -> H -> insn -> list (string * bs) -> res insn.

  Lemma filter_perm_sorted : forall (P : decoder H -> bool) ds ds', Permutation ds ds' -> NoDup (map weight (filter P ds)) ->
    filter P (sortw weight ds) = filter P (sortw weight ds').
  Proof.
    intros P ds ds' E N. apply (sorted_perm_unique weight).
    - apply perm_filter. rewrite !sortw_perm. exact E.
    - apply (Permutation_NoDup (l := map weight (filter P ds))); [|exact N].
      apply Permutation_map, perm_filter, Permutation_sym, sortw_perm.
    - apply filter_sorted, sortw_sorted.
    - apply filter_sorted, sortw_sorted.
  Qed.

  Lemma outcome_perm : forall py w a f ds ds', Permutation ds ds' ->
    NoDup (map weight (filter (effective call py w a) ds)) ->
    outcome call py w a f (sortw weight ds) = outcome call py w a f (sortw weight ds').
  Proof.
    intros py w a f ds ds' P N. unfold outcome. rewrite !scan_effective, (filter_perm_sorted _ _ _ P N).
    rewrite (miss_perm f (sortw weight ds) (sortw weight ds')); [reflexivity|]. rewrite !sortw_perm. exact P.
  Qed.

  (** ** A decode does not change later decodes *)
  Section TreeInd.
    Variable P : tree H -> Prop.
    Hypothesis PL : forall ds, P (Leaf ds).
    Hypothesis PE : P EmptyList.
    Hypothesis PN : forall m ch, Forall (fun kt => P (snd kt)) ch -> P (Node m ch).
    Fixpoint tree_rect' (t : tree H) : P t :=
      match t with
      | Leaf ds => PL ds
      | EmptyList => PE
      | Node m ch => PN m ch ((fix go ch : Forall (fun kt => P (snd kt)) ch :=
           match ch with [] => Forall_nil _ | kt :: ch' => Forall_cons kt (tree_rect' (snd kt)) (go ch') end) ch)
      end.
  End TreeInd.

  Lemma tree_same : forall t py w a py' w' a',
    snd (tree_decode call py' (fst (tree_decode call py t w a)) w' a') = snd (tree_decode call py' t w' a').
  Proof.
    induction t as [ds| |m ch IH] using tree_rect'; intros; [reflexivity | reflexivity|].
    rewrite (decode_node call py' m ch). cbn [tree_decode].
    set (go := fix go (ch : list (Z * tree H)) : list (Z * tree H) * res insn := _).
    assert (G : match dict_get Z.eqb (Z.land w' m) (fst (go ch)) with
                Some t => snd (tree_decode call py' t w' a') | None => Err AttributeError end =
                match dict_get Z.eqb (Z.land w' m) ch with
                Some t => snd (tree_decode call py' t w' a') | None => Err AttributeError end).
    { clear - IH. induction IH as [|[k t] ch Ht IHch IH2].
      - unfold go. cbn [fst dict_get]. destruct (Z.land w' m =? Z.land w m); reflexivity.
      - unfold go. fold go. cbn [snd] in Ht. destruct (Z.eqb_spec (Z.land w m) k) as [E|E].
        + specialize (Ht py w a py' w' a'). destruct (tree_decode call py t w a) as [t'' r]. cbn [fst dict_get] in *.
          destruct (Z.land w' m =? k); [exact Ht | reflexivity].
        + destruct (go ch) as [c r]. cbn [fst dict_get] in *. destruct (Z.land w' m =? k); [reflexivity | exact IH2]. }
    destruct (go ch) as [c r]. cbn [fst] in *. rewrite decode_node. exact G.
  Qed.

  Lemma decode_same : forall (t : dtree H) py data a py' data' a',
    snd (decode call py' (fst (decode call py t data a)) data' a') = snd (decode call py' t data' a').
  Proof.
    intros [t16 t32] py data a py' data' a'.
    assert (S : exists u16 u32, fst (decode call py (mkdtree t16 t32) data a) = mkdtree u16 u32 /\
      (forall w, snd (tree_decode call py' u16 w a') = snd (tree_decode call py' t16 w a')) /\
      (forall w, snd (tree_decode call py' u32 w a') = snd (tree_decode call py' t32 w a'))).
    { unfold decode. cbn [t_16 t_32].
      destruct (negb (2 <=? Z.of_nat (List.length data))); [exists t16, t32; repeat split; reflexivity|].
      destruct (bytes_to_le16 data 0) as [hw1|e]; [|exists t16, t32; repeat split; reflexivity].
      destruct (is_32bit_prefix hw1).
      - destruct (Z.of_nat (List.length data) <? 4); [exists t16, t32; repeat split; reflexivity|].
        destruct (bytes_to_le16 data 2) as [hw2|e]; [|exists t16, t32; repeat split; reflexivity].
        pose proof (fun w => tree_same t32 py (Z.lor hw1 (Z.shiftl hw2 16)) a py' w a') as T.
        destruct (tree_decode call py t32 (Z.lor hw1 (Z.shiftl hw2 16)) a) as [u r]. cbn [fst] in *.
        exists t16, u. split; [reflexivity | split; intro; [reflexivity | apply T]].
      - pose proof (fun w => tree_same t16 py hw1 a py' w a') as T.
        destruct (tree_decode call py t16 hw1 a) as [u r]. cbn [fst] in *.
        exists u, t32. split; [reflexivity | split; intro; [apply T | reflexivity]]. }
    destruct S as [u16 [u32 [E [S16 S32]]]]. rewrite E. unfold decode. cbn [t_16 t_32].
    destruct (negb (2 <=? Z.of_nat (List.length data'))); [reflexivity|].
    destruct (bytes_to_le16 data' 0) as [hw1|e]; [|reflexivity].
    destruct (is_32bit_prefix hw1).
    - destruct (Z.of_nat (List.length data') <? 4); [reflexivity|]. destruct (bytes_to_le16 data' 2) as [hw2|e]; [|reflexivity].
      specialize (S32 (Z.lor hw1 (Z.shiftl hw2 16))).
      destruct (tree_decode call py' u32 (Z.lor hw1 (Z.shiftl hw2 16)) a'), (tree_decode call py' t32 (Z.lor hw1 (Z.shiftl hw2 16)) a').
      exact S32.
    - specialize (S16 hw1). destruct (tree_decode call py' u16 hw1 a'), (tree_decode call py' t16 hw1 a'). exact S16.
  Qed.
End TreeMore.
