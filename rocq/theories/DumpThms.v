(** * Proofs about DecoderTree.dump *)
(*@imports
From Coq Require Import ZArith List String Bool Lia Permutation.
From Verif Require Import DumpModel TableModel SpecBits SpecDecoder SpecApi SpecDump DumpThms.
Local Open Scope Z_scope.
@*)
From Coq Require Import ZArith List Lia Bool String Permutation.
From Verif Require Import DumpModel TableModel SpecBits SpecDecoder SpecApi SpecDump TreeFacts DecThms ApiThms.
Local Open Scope Z_scope.

Section Dump.
  Context {H : Type}.
  Implicit Types (d : decoder H) (ds : list (decoder H)) (t : tree H).

  Lemma listed_app : forall a b : list (dline H), listed (a ++ b) = (listed a ++ listed b)%list.
  Proof. intros. unfold listed. now rewrite flat_map_app. Qed.
  Lemma listed_lines : forall depth ds i, listed (decoder_lines depth i ds) = ds.
  Proof. intros depth. induction ds as [|d ds IH]; intro i; [reflexivity|]. cbn [decoder_lines]. unfold listed in *. cbn [flat_map app]. now rewrite IH. Qed.

  (** the loop of decoder.py:189-191 *)
  Definition dump_children (py : pyver) (depth : nat) :=
    fix go (i : nat) (ch : list (Z * tree H)) : list (dline H) * res unit :=
      match ch with
      | [] => ([], Ok tt)
      | (k, t') :: ch' =>
        match dump_tree py (S (S depth)) t' with
        | (l, Err e) => (KeyLine depth i k :: l, Err e)
        | (l, Ok _) => let '(l', r) := go (S i) ch' in (KeyLine depth i k :: l ++ l', r)
        end
      end.
  Lemma dump_node : forall depth m ch, dump_tree Py2 depth (Node m ch) =
    let '(l, r) := dump_children Py2 depth 0 ch in (MaskLine depth m :: l, r).
  Proof. reflexivity. Qed.

  Lemma concat_groups : forall m ds, Permutation (flat_map snd (group_by_match m ds)) ds.
  Proof.
    intros m ds. unfold group_by_match.
    assert (A : forall k d (g : list (Z * list (decoder H))), Permutation (flat_map snd (add_to_group k d g)) (flat_map snd g ++ [d])).
    { intros k d. induction g as [|[k' l] g IH]; [reflexivity|]. cbn [add_to_group]. destruct (k =? k'); cbn [flat_map snd].
      - rewrite <- !app_assoc. apply Permutation_app_head. apply Permutation_app_comm.
      - rewrite <- app_assoc. apply Permutation_app_head. exact IH. }
    assert (G : forall ds g, Permutation (flat_map snd (fold_left (fun g d => add_to_group (Z.land (d_match d) m) d g) ds g)) (flat_map snd g ++ ds)).
    { clear ds. induction ds as [|d ds IH]; intro g; [cbn; now rewrite app_nil_r|]. cbn [fold_left].
      rewrite IH, A. now rewrite <- app_assoc. }
    exact (G ds []).
  Qed.
  Lemma sort_perm : forall ds l, sort_decoders ds = Ok l -> Permutation l ds.
  Proof.
    intros ds l E. unfold sort_decoders in E.
    destruct (map_res (fun d => let* w := hamming_weight (d_mask d) in Ok (w, d)) ds) as [kd|e] eqn:M; [|discriminate].
    cbn [bind] in E. injection E as <-.
    assert (K : map snd kd = ds).
    { revert kd M. induction ds as [|d ds IH]; intros kd M; cbn [map_res] in M; [now injection M as <-|].
      destruct (hamming_weight (d_mask d)) as [w|]; [|discriminate]. cbn [bind] in M.
      destruct (map_res _ ds) as [kd'|]; [|discriminate]. cbn [bind] in M. injection M as <-. cbn [map snd]. now rewrite (IH kd'). }
    rewrite <- K. apply Permutation_map. clear.
    assert (I : forall x (l : list (Z * decoder H)), Permutation (insert_by x l) (x :: l)).
    { intros x. induction l as [|y l IH]; [reflexivity|]. cbn [insert_by]. destruct (fst y <=? fst x); [reflexivity|].
      rewrite IH. apply perm_swap. }
    induction kd as [|x kd IH]; [reflexivity|]. cbn [fold_right]. rewrite I. now constructor.
  Qed.

  Lemma numbered_lines : forall depth ds i, decoder_lines depth i ds = map (fun '(i, d) => DecoderLine depth i d) (combine (seq i (List.length ds)) ds).
  Proof. intros depth. induction ds as [|d ds IH]; intro i; [reflexivity|]. cbn [decoder_lines List.length seq combine map]. now rewrite IH. Qed.
  Lemma all_masks_shared : forall ds, shared_mask ds (all_masks ds).
  Proof.
    intros ds k. split.
    - intros T. assert (K : 0 <= k) by (destruct (Z.lt_ge_cases k 0); [rewrite Z.testbit_neg_r in T by assumption; discriminate|assumption]).
      split; [exact K|]. intros d I. rewrite <- (all_masks_sub _ _ I), Z.land_spec in T. now apply andb_true_iff in T.
    - intros [K A]. induction ds as [|d ds IH]; [exact (Z.bits_m1 k K)|]. rewrite all_masks_cons, Z.land_spec.
      rewrite (A d (or_introl eq_refl)), IH; [reflexivity|]. intros x I. apply A. now right.
  Qed.
  Lemma shared_perm : forall (a b : list (decoder H)) m, Permutation a b -> shared_mask a m -> shared_mask b m.
  Proof.
    intros a b m P A k. rewrite (A k). split; intros [K F]; (split; [exact K|]); intros d I; apply F; [apply (Permutation_in d (Permutation_sym P) I)|apply (Permutation_in d P I)].
  Qed.
  Lemma groups_keyed : forall m ds, NoDup (map fst (group_by_match m ds)) /\
    forall k l, In (k, l) (group_by_match m ds) -> l <> [] /\ Forall (fun d => Z.land (d_match d) m = k) l.
  Proof.
    intros m ds. destruct (group_ok m ds) as [N G]. split; [exact N|]. intros k l I. pose proof (get_in _ _ _ _ N I) as E. rewrite G in E.
    destruct (filter (fun d => key m d =? k) ds) as [|x xs] eqn:F; [discriminate|]. injection E as <-. split; [discriminate|].
    rewrite <- F. apply Forall_forall. intros d J. apply filter_In in J. unfold key in J. lia.
  Qed.

  (** A tree as built lists its decoders, and none twice. *)
  Lemma dump_built : forall f ds t, build_tree f ds = Ok t -> forall depth,
    exists l ds', dump_tree Py2 depth t = (l, Ok tt) /\ Permutation ds' ds /\ outline depth ds' l.
  Proof.
    induction f as [|f IH]; intros ds t E depth; [discriminate|]. cbn [build_tree] in E.
    destruct (sort_decoders ds) as [sd|e] eqn:Es; [|discriminate]. cbn [bind] in E. pose proof (sort_perm _ _ Es) as Ps.
    assert (L : forall l', Permutation l' ds -> exists l ds', dump_tree Py2 depth (Leaf l') = (l, Ok tt) /\ Permutation ds' ds /\ outline depth ds' l).
    { intros l' P. eexists _, l'. split; [reflexivity|]. split; [exact P|]. rewrite numbered_lines. constructor. }
    destruct sd as [|d1 [|d2 sd]]; [injection E as <-; now apply L|injection E as <-; now apply L|].
    assert (SM : shared_mask (d1 :: d2 :: sd) (common_mask (d1 :: d2 :: sd))) by (rewrite common_all by discriminate; apply all_masks_shared).
    set (m := common_mask (d1 :: d2 :: sd)) in *.
    destruct (Z.eqb_spec m 0) as [|Zm]; [injection E as <-; now apply L|].
    pose proof (concat_groups m (d1 :: d2 :: sd)) as G. destruct (groups_keyed m (d1 :: d2 :: sd)) as [KN KF].
    set (g := group_by_match m (d1 :: d2 :: sd)) in *.
    assert (N : forall ch, (2 <= List.length g)%nat -> map_res (fun '(k, l) => let* t := build_tree f l in Ok (k, t)) g = Ok ch ->
      exists l ds', dump_tree Py2 depth (Node m ch) = (l, Ok tt) /\ Permutation ds' ds /\ outline depth ds' l).
    { intros ch LE M. rewrite dump_node.
      assert (C : forall g ch i, (forall k l, In (k, l) g -> l <> [] /\ Forall (fun d => Z.land (d_match d) m = k) l) ->
        map_res (fun '(k, l) => let* t := build_tree f l in Ok (k, t)) g = Ok ch ->
        exists l ds', dump_children Py2 depth i ch = (l, Ok tt) /\ Permutation ds' (flat_map snd g) /\ blocks depth m i (map fst g) ds' l).
      { clear - IH. induction g as [|[k l] g IHg]; intros ch i KF M; cbn [map_res] in M.
        - injection M as <-. exists [], []. split; [reflexivity|]. split; [reflexivity|]. constructor.
        - destruct (build_tree f l) as [t|] eqn:B; [|discriminate]. cbn [bind] in M.
          destruct (map_res _ g) as [ch'|]; [|discriminate]. cbn [bind] in M. injection M as <-.
          destruct (IH l t B (S (S depth))) as (l1 & e1 & E1 & P1 & O1). 
          destruct (IHg ch' (S i) (fun k l I => KF k l (or_intror I)) eq_refl) as (l2 & e2 & E2 & P2 & O2).
          destruct (KF k l (or_introl eq_refl)) as [NE FE].
          exists (KeyLine depth i k :: l1 ++ l2)%list, (e1 ++ e2)%list. cbn [dump_children]. rewrite E1. fold (dump_children Py2 depth (S i) ch'). rewrite E2.
          split; [reflexivity|]. cbn [flat_map snd map fst]. split; [now apply Permutation_app|]. constructor; try assumption.
          + intros ->. apply Permutation_nil in P1. contradiction.
          + apply Forall_forall. intros d I. rewrite Forall_forall in FE. apply FE. exact (Permutation_in d P1 I). }
      destruct (C g ch 0%nat KF M) as (l & d' & E1 & P1 & O1). rewrite E1. eexists _, d'. split; [reflexivity|].
      assert (P : Permutation d' (d1 :: d2 :: sd)) by now rewrite P1, G.
      split; [now rewrite P, Ps|]. apply (outline_node depth m (map fst g)); try assumption; [|now rewrite map_length].
      apply (shared_perm (d1 :: d2 :: sd)); [now symmetry|exact SM]. }
    destruct g as [|[k0 l0] g'] eqn:Eg.
    - cbn [flat_map] in G. apply Permutation_nil in G. discriminate.
    - destruct g' as [|p g'].
      + injection E as <-. apply L. rewrite <- Ps, <- G. cbn [flat_map snd]. now rewrite app_nil_r.
      + destruct (map_res _ _) as [ch|] eqn:M; [|discriminate]. cbn [bind] in E. injection E as <-. apply N; [cbn; lia|reflexivity].
  Qed.
  Lemma outline_listed : forall l depth ds, outline (H := H) depth ds l -> listed l = ds
  with blocks_listed : forall l depth m i ks ds, blocks (H := H) depth m i ks ds l -> listed l = ds.
  Proof.
    - intros l depth ds O. destruct O as [ds|m ks ds l Zm SM LE N B].
      + rewrite <- numbered_lines. exact (listed_lines depth ds 0).
      + exact (blocks_listed l depth m 0%nat ks ds B).
    - intros l depth m i ks ds B. destruct B as [m i|m i k ks ds ds' l l' NE F O B]; [reflexivity|].
      change (listed (l ++ l') = ds ++ ds')%list. rewrite listed_app. f_equal; [exact (outline_listed l _ ds O)|exact (blocks_listed l' depth m (S i) ks ds' B)].
  Qed.

  Lemma dump_py3 : forall t depth, snd (dump_tree Py3 depth t) = if leaf t then Ok tt else Err AttributeError.
  Proof. intros [ds|m ch|] depth; reflexivity. Qed.

  Lemma dump_holed : forall t depth, holed t -> snd (dump_tree Py2 depth t) = Err AttributeError.
  Proof.
    induction t as [ds| |m ch IH] using tree_rect'; intros depth Ht; [inversion Ht|reflexivity|].
    inversion Ht as [|m' ch' k t I Hk]; subst. rewrite dump_node.
    assert (C : forall i, snd (dump_children Py2 depth i ch) = Err AttributeError).
    { induction IH as [|[k0 t0] ch H0 _ IHch]; intro i; [contradiction|]. cbn [dump_children].
      destruct (dump_tree Py2 (S (S depth)) t0) as [l r] eqn:E. destruct I as [I|I].
      - injection I as <- <-. specialize (H0 (S (S depth)) Hk). cbn [snd] in H0. rewrite E in H0. cbn [snd] in H0. subst r. reflexivity.
      - assert (Hn : holed (Node m ch)) by (econstructor; eauto).
        destruct r as [u|e]; [|].
        + specialize (IHch Hn I (S i)). fold (dump_children Py2 depth (S i) ch). destruct (dump_children Py2 depth (S i) ch). exact IHch.
        + assert (D : forall t depth, match snd (dump_tree Py2 depth t) with Err AttributeError => True | Err _ => False | Ok _ => True end).
          { clear. induction t as [ds| |m ch IH] using tree_rect'; intro depth; [exact Logic.I|exact Logic.I|]. rewrite dump_node.
            assert (C : forall i, match snd (dump_children Py2 depth i ch) with Err AttributeError => True | Err _ => False | Ok _ => True end).
            { induction IH as [|[k t] ch H0 _ IHch]; intro i; [exact Logic.I|]. cbn [dump_children]. specialize (H0 (S (S depth))). cbn [snd] in H0.
              destruct (dump_tree Py2 (S (S depth)) t) as [l [u|e]]; [|exact H0].
              specialize (IHch (S i)). fold (dump_children Py2 depth (S i) ch). destruct (dump_children Py2 depth (S i) ch). exact IHch. }
            specialize (C 0%nat). destruct (dump_children Py2 depth 0 ch). exact C. }
          specialize (D t0 (S (S depth))). rewrite E in D. cbn [snd] in *. destruct e; try contradiction; reflexivity. }
    specialize (C 0%nat). destruct (dump_children Py2 depth 0 ch). exact C.
  Qed.

  Lemma decode_one_error : forall call py d w a, (forall py h i l, call py h i l <> Err AttributeError) ->
    decode_one call py d w a <> Err AttributeError.
  Proof.
    intros call py d w a Hc. unfold decode_one.
    assert (M : forall fs : fields, map_res (fun '(n, (i, size)) => let* x := py_shr w i in
      let* b := bs_init (VInt x) (Some size) in Ok (n, b)) fs <> Err AttributeError).
    { induction fs as [|[n [i size]] fs IH]; [discriminate|]. cbn [map_res]. unfold py_shr at 1.
      destruct (i <? 0); cbn [bind]; [discriminate|].
      unfold bs_init at 1, bs_finish at 1, py_shl at 1. cbn [bs_raw bind]. destruct (size <? 0); cbn [bind]; [discriminate|].
      destruct (map_res _ fs); cbn [bind]; congruence. }
    specialize (M (d_fields d)). destruct (map_res _ (d_fields d)); cbn [bind]; [apply Hc|congruence].
  Qed.

  (** A lookup leaves the tree alone or a hole in it. *)
  Lemma decode_holes : forall call py w a t,
    fst (tree_decode call py t w a) = t \/
    (holed (fst (tree_decode call py t w a)) /\ snd (tree_decode call py t w a) = Err AttributeError).
  Proof.
    intros call py w a. induction t as [ds| |m ch IH] using tree_rect'; [left; reflexivity|left; reflexivity|]. cbn [tree_decode].
    set (go := fix go (ch : list (Z * tree H)) : list (Z * tree H) * res insn := _).
    assert (G : fst (go ch) = ch \/ ((exists k t, In (k, t) (fst (go ch)) /\ holed t) /\ snd (go ch) = Err AttributeError)).
    { induction IH as [|[k t] ch Ht _ IHch].
      - right. cbn. split; [|reflexivity]. exists (Z.land w m), EmptyList. split; [now left|constructor].
      - unfold go. fold go. cbn [snd] in Ht. destruct (Z.land w m =? k).
        + destruct (tree_decode call py t w a) as [t' r]. cbn [fst snd] in *. destruct Ht as [->|[Hh Hr]]; [now left|].
          right. split; [|exact Hr]. exists k, t'. split; [now left|exact Hh].
        + destruct (go ch) as [c r]. cbn [fst snd] in *. destruct IHch as [->|[(k' & t' & I & Hh) Hr]]; [now left|].
          right. split; [|exact Hr]. exists k', t'. split; [now right|exact Hh]. }
    destruct (go ch) as [c r]. cbn [fst snd] in *. destruct G as [->|[(k & t & I & Hh) Hr]]; [now left|].
    right. split; [econstructor; eauto|exact Hr].
  Qed.
End Dump.

(*@doc C82: after [build], and with whatever was added since, [dump] in Python 2 shows every
decoder that was built exactly once, the 16-bit ones first, as an outline: under each mask
and key are the decoders that have these bits.  Missing: Python 3 (C82_dump_refuted). @*)
Lemma C82_dump_partial_proof : forall (H : Type) call (before : list (rcall H)) since,
  Forall (fun c => match c with RInstr _ _ _ _ _ _ => True | _ => False end) since ->
  exists l16 l32,
    dump 2 Py2 (r_history call (before ++ RBuild :: since)) None =
      ((Heading "16-bit instructions:" :: l16 ++ Heading "32-bit instructions:" :: l32)%list, Ok tt) /\
    Permutation (listed l16) (registered16 (added before)) /\
    Permutation (listed l32) (registered32 (added before)) /\
    outline 0 (listed l16) l16 /\ outline 0 (listed l32) l32.
Proof.
  intros H call before since N. destruct (build_ok call before) as (t & E & O & T).
  unfold r_history in *. rewrite fold_left_app. cbn [fold_left r_call].
  assert (T' : has_trees (fold_left (r_call call) since (fst (registry_build (fold_left (r_call call) before registry_new)))) t).
  { revert T. generalize (fst (registry_build (fold_left (r_call call) before registry_new))).
    induction N as [|c since Nc N IH]; intros o T; [exact T|]. cbn [fold_left]. apply IH.
    destruct c as [h m k sp sp2 kw| |]; try contradiction. cbn [r_call]. unfold registry_instr.
    destruct (make_decoder h m k sp sp2 kw) as [d|e]; [|exact T]. cbn [fst]. unfold add_decoder. destruct (d_is32 d); exact T. }
  destruct T' as [T16 T32]. unfold build in E.
  destruct (build_tree _ (registered16 (added before))) as [t16|] eqn:B16; [|discriminate]. cbn [bind] in E.
  destruct (build_tree _ (registered32 (added before))) as [t32|] eqn:B32; [|discriminate]. cbn [bind] in E. injection E as <-.
  cbn [t_16 t_32] in *.
  destruct (dump_built _ _ _ B16 0%nat) as (l16 & d16 & D16 & P16 & O16). destruct (dump_built _ _ _ B32 0%nat) as (l32 & d32 & D32 & P32 & O32).
  exists l16, l32. rewrite (outline_listed _ _ _ O16), (outline_listed _ _ _ O32). split; [|repeat split; assumption]. cbn [dump]. rewrite T16, T32, D16, D32. reflexivity.
Qed.
(*@ex
Example C82_dump_partial_ex : let call := fun (_ : pyver) (_ : Z) i (_ : list (string * bs)) => Ok i in
  map (fun x => match x with Heading _ => (9, 0) | MaskLine _ m => (m, 1) | KeyLine _ _ k => (k, 2) | DecoderLine _ _ d => (d_handler d, 3) end)
    (fst (dump 2 Py2 (r_history call [RInstr 1 "one" Instruction "0000 0000 a(8)" None []; RInstr 2 "two" Instruction "0000 0001 a(8)" None []; RBuild]) None)) =
  [(9, 0); (0xff00, 1); (0, 2); (0, 1); (1, 3); (0x100, 2); (0, 1); (2, 3); (9, 0); (0, 1)].
Proof. vm_compute. reflexivity. Qed.
@*)
(*@doc C82: Python 3: [dump] raises AttributeError unless both trees are leaves. @*)
Lemma C82_dump_py3_proof : forall (H : Type) call (before : list (rcall H)),
  exists t, build (added before) = Ok t /\
    snd (dump 2 Py3 (r_history call (before ++ [RBuild])) None) = if leaf (t_16 t) && leaf (t_32 t) then Ok tt else Err AttributeError.
Proof.
  intros H call before. destruct (build_ok call before) as (t & E & O & T). exists t. split; [exact E|].
  unfold r_history in *. rewrite fold_left_app. cbn [fold_left r_call]. destruct T as [T16 T32].
  cbn [dump]. rewrite T16, T32. unfold build in E.
  destruct (build_tree _ (registered16 (added before))) as [t16|] eqn:B16; [|discriminate]. cbn [bind] in E.
  destruct (build_tree _ (registered32 (added before))) as [t32|] eqn:B32; [|discriminate]. cbn [bind] in E. injection E as <-.
  cbn [t_16 t_32] in *.
  pose proof (dump_py3 t16 0%nat) as D16. pose proof (dump_py3 t32 0%nat) as D32.
  destruct (dump_tree Py3 0 t16) as [l r], (dump_tree Py3 0 t32) as [l' r']. cbn [snd] in *.
  rewrite D16, D32. destruct (leaf t16); reflexivity.
Qed.
(*@ex
Example C82_dump_py3_ex : let call := fun (_ : pyver) (_ : Z) i (_ : list (string * bs)) => Ok i in
  snd (dump 2 Py3 (r_history call [RInstr 1 "one" Instruction "0000 0000 a(8)" None []; RBuild]) None) = Ok tt.
Proof. vm_compute. reflexivity. Qed.
@*)
(*@doc ... so the dump of the library's own table fails in Python 3. @*)
Lemma C82_dump_refuted_proof : exists ds t, DECODERS = Ok ds /\ build ds = Ok t /\ leaf (t_16 t) = false /\
  snd (dump 2 Py3 (mkregistry (registered16 ds) (registered32 ds) (Some (t_16 t)) (Some (t_32 t))) None) = Err AttributeError.
Proof. eexists _, _. split; [vm_compute; reflexivity|]. split; [vm_compute; reflexivity|]. split; vm_compute; reflexivity. Qed.

(*@doc C82: before the first [build] the method calls itself for ever. @*)
Lemma C82_unbuilt_proof : forall (H : Type) (o : registry H) py fuel, rg_tree16 o = None -> snd (dump fuel py o None) = Err OutOfFuel.
Proof.
  intros H o py fuel E. induction fuel as [|f IH]; [reflexivity|]. cbn [dump]. rewrite E.
  destruct (dump f py o None) as [l r]. cbn [snd] in IH. subst r. reflexivity.
Qed.
(*@ex
Example C82_unbuilt_ex : forall H : Type, fst (dump 2 Py3 (@registry_new H) None) = [Heading "16-bit instructions:"; Heading "16-bit instructions:"]%string.
Proof. reflexivity. Qed.
@*)

(*@doc C82: a decode leaves the tree as it was unless it raised AttributeError for want of a key;
after that the tree cannot be dumped. @*)
Lemma C82_after_miss_proof : forall (H : Type) call py (t : tree H) w a,
  (forall py h i l, call py h i l <> Err AttributeError) -> ~ holed t ->
  let '(t', r) := tree_decode call py t w a in
  (r <> Err AttributeError -> t' = t) /\
  (r = Err AttributeError -> forall depth, snd (dump_tree Py2 depth t') = Err AttributeError).
Proof.
  intros H call py t w a Hc Nh. pose proof (decode_holes call py w a t) as D.
  destruct (tree_decode call py t w a) as [t' r] eqn:E. cbn [fst snd] in D. split.
  - intros Nr. destruct D as [D|[_ D]]; [exact D|contradiction].
  - intros -> depth. apply dump_holed. destruct D as [->|[D _]]; [|exact D]. exfalso.
    clear - Hc Nh E. revert E. induction t as [ds| |m ch IH] using tree_rect'; intros E.
    + cbn [tree_decode] in E. assert (T : try_decoders call py ds w a = Err AttributeError) by congruence. clear E.
      induction ds as [|d ds IHd]; [discriminate|]. cbn [try_decoders] in T.
      destruct (check d w); [|apply IHd; [intro Q; inversion Q|exact T]].
      destruct (decode_one call py d w a) as [i|e] eqn:De; [discriminate|].
      assert (e <> AttributeError) by (intros ->; now apply (decode_one_error call py d w a Hc)).
      destruct e; try congruence. apply IHd; [intro Q; inversion Q|exact T].
    + apply Nh. constructor.
    + cbn [tree_decode] in E.
      set (go := fix go (ch : list (Z * tree H)) : list (Z * tree H) * res insn := _) in E.
      assert (Nc : forall k t, In (k, t) ch -> ~ holed t) by (intros k t I Q; apply Nh; econstructor; eauto).
      assert (G : go ch <> (ch, Err AttributeError)).
      { clear - IH Nc. induction IH as [|[k t] ch Ht _ IHch]; [discriminate|]. unfold go. fold go.
        destruct (Z.land w m =? k).
        - destruct (tree_decode call py t w a) as [t' r] eqn:Et. cbn [snd] in Ht. intros Q. injection Q as -> ->.
          refine (Ht _ Et). apply (Nc k). now left.
        - destruct (go ch) as [c r]. intros Q. injection Q as -> ->. apply IHch; [|reflexivity]. intros k' t' I. apply (Nc k'). now right. }
      destruct (go ch) as [c r]. apply G. congruence.
Qed.
(*@ex
Example C82_after_miss_ex : let call := fun (_ : pyver) (_ : Z) i (_ : list (string * bs)) => Ok i in
  let o := r_history call [RInstr 1 "one" Instruction "0000 0000 a(8)" None []; RInstr 2 "two" Instruction "0000 0001 a(8)" None []; RBuild] in
  snd (registry_decode call Py2 [0; 2] 0 o) = Err AttributeError /\
  snd (dump 2 Py2 o None) = Ok tt /\ snd (dump 2 Py2 (fst (registry_decode call Py2 [0; 2] 0 o)) None) = Err AttributeError.
Proof. repeat split; vm_compute; reflexivity. Qed.
@*)

(*@doc C82: the texts of the lines. @*)
Lemma C82_texts_proof : forall (H : Type) py id (d : decoder H) depth i z s,
  line_text py id (Heading s : dline H) = s /\
  line_text py id (MaskLine depth z : dline H) = (indent depth ++ " 0x" ++ fmt_x z ++ " =>")%string /\
  line_text py id (KeyLine depth i z : dline H) = ("  " ++ indent depth ++ " " ++ fmt_d (Z.of_nat i) ++ " : 0x" ++ fmt_x z)%string /\
  line_text py id (DecoderLine depth i d) = ("  " ++ indent depth ++ " " ++ fmt_d (Z.of_nat i) ++ " : " ++ decoder_repr py (id d) d)%string /\
  decoder_repr Py2 z d = ("<Decoder@0x" ++ fmt_x z ++ " " ++ d_mnemonic d ++ " " ++ fmt_x (d_mask d) ++ "/" ++ fmt_x (d_match d)
     ++ " [" ++ join ", " (map (fun n => "'" ++ n ++ "'") (map fst (d_fields d))) ++ "]>")%string /\
  decoder_repr Py3 z d = ("<Decoder@0x" ++ fmt_x z ++ " " ++ d_mnemonic d ++ " " ++ fmt_x (d_mask d) ++ "/" ++ fmt_x (d_match d)
     ++ " dict_keys([" ++ join ", " (map (fun n => "'" ++ n ++ "'") (map fst (d_fields d))) ++ "])>")%string.
Proof.
  intros. assert (A : forall a b c : string, ((a ++ b) ++ c = a ++ b ++ c)%string).
  { induction a as [|x a IH]; intros b c; [reflexivity|]. cbn [append]. now rewrite IH. }
  unfold line_text, decoder_repr, keys_text. cbn [indent]. rewrite ?A. repeat split; reflexivity.
Qed.
(*@ex
Example C82_texts_ex : exists d : decoder Z, make_decoder 1 "one" Instruction "0000 0001 a(4) b(4)" None [] = Ok d /\
  line_text Py3 (fun _ => 4096) (DecoderLine 0 3 d) = "   3 : <Decoder@0x1000 one ff00/100 dict_keys(['b', 'a'])>"%string.
Proof. eexists. split; vm_compute; reflexivity. Qed.
@*)
