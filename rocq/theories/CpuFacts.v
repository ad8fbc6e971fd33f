(** * Lemmas about the machine state *)
From Verif Require Import BitstringModel SpecBits BitFacts BitOps BitMisc UtilFacts CpuModel SpecCpu.
From Coq Require Import Lia ZifyBool.

Lemma key_eqb_refl : forall k, key_eqb k k = true.
Proof. intros [k|]; [apply Z.eqb_refl|reflexivity]. Qed.
Lemma key_eqb_eq : forall a b, key_eqb a b = true <-> a = b.
Proof.
  intros [a|] [b|]; cbn [key_eqb]; split; intros H; try congruence.
  - f_equal. lia.
  - injection H. lia.
Qed.
Lemma key_eqb_sym : forall a b, key_eqb a b = key_eqb b a.
Proof. intros [a|] [b|]; cbn [key_eqb]; try reflexivity. apply Z.eqb_sym. Qed.

Lemma reg_get_set : forall d k v k',
  reg_get (reg_set d k v) k' = if key_eqb k' k then Some v else reg_get d k'.
Proof.
  unfold reg_get, reg_set. induction d as [|[k0 v0] d IH]; intros k v k'; cbn [dict_set dict_get]; [reflexivity|].
  destruct (key_eqb k k0) eqn:E; cbn [dict_get].
  - apply key_eqb_eq in E. subst k0. destruct (key_eqb k' k) eqn:E'; [reflexivity|]. reflexivity.
  - rewrite IH. destruct (key_eqb k' k0) eqn:E0; [|reflexivity].
    destruct (key_eqb k' k) eqn:E1; [|reflexivity].
    apply key_eqb_eq in E0, E1. subst. rewrite key_eqb_refl in E. discriminate.
Qed.

Lemma spsel_0 : spsel = 0.
Proof. reflexivity. Qed.

Lemma land_lnot3 : forall v, Z.land v (Z.lnot 3) = v - v mod 4.
Proof.
  intros v. rewrite <- Z.ldiff_land. change 3 with (2 ^ 2 - 1).
  rewrite <- Z.ones_equiv || idtac.
  change (2 ^ 2 - 1) with (Z.ones 2). rewrite Z.ldiff_ones_r, Z.shiftl_mul_pow2, Z.shiftr_div_pow2 by lia.
  change (2 ^ 2) with 4. pose proof (Z.div_mod v 4). lia.
Qed.

Lemma mock_mask_kept : forall k v, mock_mask (Some k) v = kept k v.
Proof.
  intros k v. unfold mock_mask, kept. cbn [key_eqb].
  destruct (k =? 13) eqn:A; [replace k with 13 by lia; cbn; apply land_lnot3|].
  destruct (k =? 17) eqn:B; [replace k with 17 by lia; cbn; apply land_lnot3|].
  destruct (k =? 18) eqn:C; [replace k with 18 by lia; cbn; apply land_lnot3|].
  destruct (k =? -1) eqn:D; [replace k with (-1) by lia; cbn; change 1 with (2 ^ 1 - 1); apply land_mask; lia|].
  destruct (k =? -3) eqn:E; [replace k with (-3) by lia; cbn; change 1 with (2 ^ 1 - 1); apply land_mask; lia|].
  destruct (k =? -2) eqn:F; [replace k with (-2) by lia; cbn; apply land_255|].
  reflexivity.
Qed.

Lemma mock_mask_none : forall v, mock_mask None v = v.
Proof. reflexivity. Qed.

Lemma mock_write_get : forall c k v j,
  reg_get (c_regs (mock_write_register c (Some k) v)) (Some j) =
  if written k j then Some (kept k v) else reg_get (c_regs c) (Some j).
Proof.
  intros c k v j. unfold mock_write_register. rewrite mock_mask_kept, spsel_0.
  change (negb (0 =? 0)) with false. change (0 =? 0) with true. change (0 =? 1) with false.
  cbv iota zeta. cbn [c_regs]. rewrite andb_true_r, andb_false_r, orb_false_r.
  cbn [key_eqb]. unfold written.
  destruct (k =? 13) eqn:A; [|destruct (k =? 17) eqn:B]; rewrite ?reg_get_set; cbn [key_eqb andb];
  destruct (j =? k) eqn:C, (j =? 13) eqn:D, (j =? 17) eqn:E; rewrite ?andb_false_r; cbn [orb]; try reflexivity; exfalso; lia.
Qed.

Lemma mock_write_none : forall c v j,
  reg_get (c_regs (mock_write_register c None v)) (Some j) = reg_get (c_regs c) (Some j).
Proof. intros. unfold mock_write_register. cbn [key_eqb andb orb c_regs]. rewrite reg_get_set. reflexivity. Qed.

Lemma mock_write_mem : forall c k v, c_mem (mock_write_register c k v) = c_mem c.
Proof. reflexivity. Qed.

Lemma mock_write_reg : forall c k v j,
  reg (mock_write_register c (Some k) v) j = if written k j then kept k v else reg c j.
Proof. intros. unfold reg. rewrite mock_write_get. destruct (written k j); reflexivity. Qed.

Lemma kept_range : forall k v, 0 <= v < 2 ^ 32 -> 0 <= kept k v < 2 ^ 32.
Proof.
  intros k v H. unfold kept. pose proof (Z.mod_pos_bound v 4). pose proof (Z.mod_pos_bound v 2).
  pose proof (Z.mod_pos_bound v 256). pose proof (Z.mod_le v 4).
  destruct ((k =? 13) || (k =? 17) || (k =? 18)); [lia|]. destruct ((k =? -1) || (k =? -3)); [lia|].
  destruct (k =? -2); lia.
Qed.

Lemma kept_aligned : forall k v, k = 13 \/ k = 17 \/ k = 18 -> kept k v mod 4 = 0.
Proof.
  intros k v [-> | [-> | -> ]]; unfold kept; cbn [Z.eqb Pos.eqb orb];
  rewrite Zminus_mod, Z.mod_mod, Z.sub_diag by lia; reflexivity.
Qed.

Lemma kept_plain : forall k v, 0 <= k <= 16 -> k <> 13 -> kept k v = v.
Proof. intros k v H1 H2. unfold kept. replace (k =? 13) with false by lia. replace (k =? 17) with false by lia.
  replace (k =? 18) with false by lia. replace (k =? -1) with false by lia. replace (k =? -3) with false by lia.
  replace (k =? -2) with false by lia. reflexivity.
Qed.

Lemma regs_ok_write : forall c k v, regs_ok c -> 0 <= v < 2 ^ 32 -> regs_ok (mock_write_register c (Some k) v).
Proof.
  intros c k v H Hv j Hj. rewrite mock_write_get. destruct (written k j).
  - eexists. split; [reflexivity|]. apply kept_range, Hv.
  - apply H, Hj.
Qed.
Lemma sp_ok_write : forall c k v, sp_ok c -> sp_ok (mock_write_register c (Some k) v).
Proof.
  intros c k v (H1 & H2 & H3). unfold sp_ok. rewrite !mock_write_reg. unfold written.
  destruct (Z.eq_dec k 13) as [->|N13].
  { repeat split; [apply (kept_aligned 13); lia|exact H3]. }
  destruct (Z.eq_dec k 17) as [->|N17].
  { repeat split; [apply (kept_aligned 17); lia|exact H3]. }
  replace (13 =? k) with false by lia. replace (17 =? k) with false by lia.
  replace (k =? 13) with false by lia. replace (k =? 17) with false by lia. cbn [andb orb].
  split; [exact H1|]. split; [exact H2|]. destruct (Z.eqb_spec 18 k) as [<-|_]; cbn [orb]; [|exact H3].
  apply kept_aligned. lia.
Qed.

Lemma regs_ok_reg : forall c k, regs_ok c -> core k -> reg_get (c_regs c) (Some k) = Some (reg c k) /\ 0 <= reg c k < 2 ^ 32.
Proof. intros c k H Hk. destruct (H k Hk) as (v & E & R). unfold reg. rewrite E. auto. Qed.

Lemma init_default : forall v, 0 <= v < 2 ^ 32 -> bs_init (VInt v) None = Ok (bits 32 v).
Proof.
  intros v H. unfold bs_init, bs_raw. cbn [bind]. change (Z.shiftl 1 32) with (2 ^ 32).
  replace (2 ^ 32 <? v) with false by lia. apply finish_ok. lia.
Qed.

Lemma read_index : forall c r k, register_name_to_index r = Some k -> regs_ok c -> core k ->
  read_register c r = Ok (bits 32 (reg c k)).
Proof.
  intros c r k E H Hk. destruct (regs_ok_reg c k H Hk) as [G R].
  unfold read_register, mock_read_register. rewrite E, G. cbn [bind]. apply init_default, R.
Qed.

(** ** Registers by name *)
Lemma read_pc : forall c, regs_ok c -> read_register c (RName "pc") = Ok (bits 32 (reg c 15)).
Proof. intros. apply read_index; [reflexivity|assumption|left; lia]. Qed.

Lemma r_get_ok : forall c k, regs_ok c -> 0 <= k <= 15 -> r_get c k = Ok (bits 32 (reg c k)).
Proof.
  intros c k H Hk. unfold r_get, ri_get. rewrite !Z.add_0_l. replace (15 <? k) with false by lia.
  apply read_index; [reflexivity|assumption|left; lia].
Qed.
Lemma r_set_ok : forall c k v, k <= 15 -> r_set c k v = Ok (mock_write_register c (Some k) (num_val v)).
Proof. intros. unfold r_set, ri_set. rewrite Z.add_0_l. replace (15 <? k) with false by lia. reflexivity. Qed.

(** ** Regions *)
Lemma find_mem_from_ok : forall l i a,
  match find_mem_from i l a with
  | Some (j, m, off) => (i <= j)%nat /\ nth_error l (j - i) = Some m /\ in_region m a /\ off = a - m_start m /\
      forall j' m', (j' < j - i)%nat -> nth_error l j' = Some m' -> ~ in_region m' a
  | None => forall m, In m l -> ~ in_region m a
  end.
Proof.
  induction l as [|m l IH]; intros i a; cbn [find_mem_from]; [intros m []|].
  destruct ((m_start m <=? a) && (a <=? m_end m)) eqn:E.
  - split; [lia|]. rewrite Nat.sub_diag. split; [reflexivity|]. split; [unfold in_region; lia|].
    split; [reflexivity|]. intros j' m' Hj. lia.
  - specialize (IH (S i) a). destruct (find_mem_from (S i) l a) as [[[j m0] off]|].
    + destruct IH as (H1 & H2 & H3 & H4 & H5). split; [lia|].
      replace (j - i)%nat with (S (j - S i)) by lia. cbn [nth_error]. split; [exact H2|].
      split; [exact H3|]. split; [exact H4|]. intros [|j'] m' Hj Hm; cbn [nth_error] in Hm.
      * injection Hm as <-. unfold in_region. lia.
      * apply (H5 j'); [lia|exact Hm].
    + intros m0 [<-|Hin]; [unfold in_region; lia|apply IH, Hin].
Qed.

Lemma find_mem_located : forall c a i m, located c a i m -> find_mem c a = Some (i, m, a - m_start m).
Proof.
  intros c a i m (H1 & H2 & H3). unfold find_mem. pose proof (find_mem_from_ok (c_mem c) 0 a) as F.
  destruct (find_mem_from 0 (c_mem c) a) as [[[j m0] off]|].
  - destruct F as (_ & F1 & F2 & -> & F4). rewrite Nat.sub_0_r in *.
    destruct (Nat.lt_trichotomy i j) as [L|[->|L]].
    + exfalso. exact (F4 i m L H1 H2).
    + rewrite H1 in F1. injection F1 as ->. reflexivity.
    + exfalso. exact (H3 j m0 L F1 F2).
  - exfalso. exact (F m (nth_error_In _ _ H1) H2).
Qed.
Lemma find_mem_unmapped : forall c a, unmapped c a -> find_mem c a = None.
Proof.
  intros c a H. unfold find_mem. pose proof (find_mem_from_ok (c_mem c) 0 a) as F.
  destruct (find_mem_from 0 (c_mem c) a) as [[[j m0] off]|]; [|reflexivity].
  destruct F as (_ & F1 & F2 & _). exfalso. exact (H m0 (nth_error_In _ _ F1) F2).
Qed.
Lemma located_or_unmapped : forall c a, (exists i m, located c a i m) \/ unmapped c a.
Proof.
  intros c a. pose proof (find_mem_from_ok (c_mem c) 0 a) as F.
  destruct (find_mem_from 0 (c_mem c) a) as [[[j m0] off]|]; [left|right; exact F].
  destruct F as (_ & F1 & F2 & _ & F4). rewrite Nat.sub_0_r in *. exists j, m0. split; [exact F1|]. split; [exact F2|exact F4].
Qed.
Lemma located_fun : forall c a i m i' m', located c a i m -> located c a i' m' -> i = i' /\ m = m'.
Proof.
  intros c a i m i' m' H H'. apply find_mem_located in H, H'. rewrite H in H'. injection H' as -> ->. auto.
Qed.

(** ** Slices *)
Lemma slice_indices_sl : forall a n len, 0 <= a -> 0 <= n -> 0 <= len ->
  slice_indices (sl a (a + n)) len = Ok (Z.min a len, Z.min (a + n) len, 1).
Proof.
  intros a n len Ha Hn Hl. unfold slice_indices, sl. cbn [sl_step sl_start sl_stop Z.eqb Z.ltb Z.compare].
  unfold slice_clamp. change (1 <? 0) with false. cbv iota.
  replace (a <? 0) with false by lia. replace (a + n <? 0) with false by lia.
  f_equal. f_equal. f_equal; [destruct (len <? a) eqn:E; lia|destruct (len <? a + n) eqn:E; lia].
Qed.

Lemma list_slice_ok : forall A (l : list A) a n, 0 <= a -> 0 <= n ->
  list_slice l a (a + n) = firstn (Z.to_nat n) (skipn (Z.to_nat a) l).
Proof.
  intros A l a n Ha Hn. unfold list_slice. rewrite slice_indices_sl by lia.
  destruct (Z.leb_spec (Z.of_nat (List.length l)) a).
  - rewrite (skipn_all2 l (n := Z.to_nat a)) by lia. rewrite firstn_nil.
    replace (Z.min (a + n) _ - Z.min a _) with 0 by lia. reflexivity.
  - replace (Z.min a _) with a by lia.
    destruct (Z.leb_spec (a + n) (Z.of_nat (List.length l))).
    + replace (Z.min (a + n) _ - a) with n by lia. reflexivity.
    + rewrite !firstn_all2; [reflexivity| |]; rewrite skipn_length; lia.
Qed.

Lemma list_setslice_ok : forall l a new, 0 <= a <= Z.of_nat (List.length l) -> Forall is_byte new ->
  list_setslice l a (a + Z.of_nat (List.length new)) new =
  Ok (firstn (Z.to_nat a) l ++ new ++ skipn (Z.to_nat a + List.length new) l).
Proof.
  intros l a new Ha HF. unfold list_setslice. rewrite slice_indices_sl by lia. cbn [bind].
  replace (forallb byte_ok new) with true.
  2:{ symmetry. apply forallb_forall. intros x Hx. rewrite Forall_forall in HF. specialize (HF x Hx).
      unfold is_byte in HF. unfold byte_ok. lia. }
  replace (Z.min a _) with a by lia. f_equal. f_equal. f_equal.
  destruct (Z.leb_spec (a + Z.of_nat (List.length new)) (Z.of_nat (List.length l))).
  - f_equal. lia.
  - rewrite !skipn_all2 by lia. reflexivity.
Qed.

Lemma nth_skipn : forall A (l : list A) n i, nth_error (skipn n l) i = nth_error l (n + i).
Proof. induction l as [|x l IH]; intros [|n] i; cbn [skipn plus nth_error]; try reflexivity; [destruct i; reflexivity|apply IH]. Qed.
Lemma nth_firstn : forall A (l : list A) n i, (i < n)%nat -> nth_error (firstn n l) i = nth_error l i.
Proof. induction l as [|x l IH]; intros [|n] [|i] H; cbn [firstn nth_error]; try reflexivity; try lia. apply IH. lia. Qed.

(** Contents after a splice. *)
Lemma splice_nth : forall (l new : list Z) a o, (a <= List.length l)%nat ->
  nth_error (firstn a l ++ new ++ skipn (a + List.length new) l) o =
  if (Nat.leb a o && Nat.ltb o (a + List.length new))%bool then nth_error new (o - a) else nth_error l o.
Proof.
  intros l new a o Ha.
  assert (L1 : List.length (firstn a l) = a) by (rewrite firstn_length; lia).
  destruct (Nat.leb_spec a o); cbn [andb].
  - rewrite nth_error_app2 by lia. rewrite L1.
    destruct (Nat.ltb_spec o (a + List.length new)).
    + rewrite nth_error_app1 by lia. reflexivity.
    + rewrite nth_error_app2 by lia. rewrite nth_skipn. f_equal. lia.
  - rewrite nth_error_app1 by lia. apply nth_firstn. lia.
Qed.

Lemma splice_bytes : forall (l new : list Z) a, Forall is_byte l -> Forall is_byte new ->
  Forall is_byte (firstn a l ++ new ++ skipn (a + List.length new) l).
Proof.
  intros l new a Hl Hn. rewrite Forall_forall in *. intros x Hx.
  apply in_app_or in Hx as [Hx|Hx]; [|apply in_app_or in Hx as [Hx|Hx]].
  - apply Hl. rewrite <- (firstn_skipn a l). apply in_or_app. auto.
  - auto.
  - apply Hl. rewrite <- (firstn_skipn (a + List.length new) l). apply in_or_app. auto.
Qed.
Lemma splice_length : forall (l new : list Z) a, (a <= List.length l)%nat ->
  (List.length l <= List.length (firstn a l ++ new ++ skipn (a + List.length new) l))%nat.
Proof. intros. rewrite !app_length, firstn_length, skipn_length. lia. Qed.

(** ** Replacing the bytes of one region *)
Lemma nth_list_update : forall A (f : A -> A) l i j,
  nth_error (list_update i f l) j = if Nat.eqb j i then option_map f (nth_error l j) else nth_error l j.
Proof.
  induction l as [|x l IH]; intros i j; cbn [list_update].
  - destruct i; destruct j; cbn [nth_error option_map]; destruct (Nat.eqb _ _); reflexivity.
  - destruct i as [|i], j as [|j]; cbn [nth_error Nat.eqb]; try reflexivity. apply IH.
Qed.
Lemma map_list_update : forall A B (f : A -> A) (g : A -> B) l i, (forall x, g (f x) = g x) ->
  map g (list_update i f l) = map g l.
Proof.
  induction l as [|x l IH]; intros i H; [destruct i; reflexivity|]. destruct i; cbn [list_update map]; rewrite ?H, ?IH by assumption; reflexivity.
Qed.
Lemma Forall_list_update : forall A (P : A -> Prop) f l i m, Forall P l -> nth_error l i = Some m -> P (f m) ->
  Forall P (list_update i f l).
Proof.
  induction l as [|x l IH]; intros i m H E Hf; [destruct i; discriminate|]. inversion H; subst.
  destruct i as [|i]; cbn [list_update nth_error] in *.
  - injection E as ->. constructor; assumption.
  - constructor; [assumption|]. apply (IH i m); assumption.
Qed.

Definition put (c : cpu) (i : nat) (m : membuf) (off : Z) (new : list Z) : cpu :=
  set_data c i (firstn (Z.to_nat off) (m_data m) ++ new ++ skipn (Z.to_nat off + List.length new) (m_data m)).

Lemma put_regs : forall c i m off new, c_regs (put c i m off new) = c_regs c.
Proof. reflexivity. Qed.
Lemma put_layout : forall c i m off new, layout (put c i m off new) = layout c.
Proof. intros. unfold layout, put, set_data. cbn [c_mem]. apply map_list_update. reflexivity. Qed.

Lemma located_bounds : forall c a i m, mem_ok c -> located c a i m ->
  region_ok m /\ 0 <= a - m_start m < Z.of_nat (List.length (m_data m)).
Proof.
  intros c a i m H (H1 & H2 & H3). unfold mem_ok in H. rewrite Forall_forall in H.
  specialize (H m (nth_error_In _ _ H1)). split; [exact H|]. destruct H as [_ H]. unfold in_region in H2. lia.
Qed.

Lemma put_mem_ok : forall c a i m new, mem_ok c -> located c a i m -> Forall is_byte new ->
  mem_ok (put c i m (a - m_start m) new).
Proof.
  intros c a i m new H L HF. destruct (located_bounds c a i m H L) as [[R1 R2] B].
  unfold mem_ok, put, set_data. cbn [c_mem]. apply (Forall_list_update _ _ _ _ _ m); [exact H|apply L|].
  unfold region_ok. cbn [m_data m_start m_end]. split.
  - apply splice_bytes; assumption.
  - pose proof (splice_length (m_data m) new (Z.to_nat (a - m_start m)) ltac:(lia)). lia.
Qed.

Lemma put_cell : forall c a i m new j o, mem_ok c -> located c a i m ->
  cell (put c i m (a - m_start m) new) j o =
  let off := a - m_start m in
  if (Nat.eqb j i && (off <=? o) && (o <? off + Z.of_nat (List.length new)))%bool
  then nth_error new (Z.to_nat (o - off)) else cell c j o.
Proof.
  intros c a i m new j o H L. destruct (located_bounds c a i m H L) as [_ B]. destruct L as (L1 & L2 & L3).
  unfold cell, put, set_data. cbn [c_mem]. rewrite nth_list_update. cbv zeta.
  destruct (Nat.eqb_spec j i) as [->|Nj]; cbn [andb]; [|reflexivity].
  rewrite L1. cbn [option_map m_data].
  destruct (o <? 0) eqn:O; [replace (a - m_start m <=? o) with false by lia; reflexivity|].
  rewrite splice_nth by lia.
  replace (Nat.leb (Z.to_nat (a - m_start m)) (Z.to_nat o)) with (a - m_start m <=? o) by lia.
  replace (Nat.ltb (Z.to_nat o) (Z.to_nat (a - m_start m) + List.length new)) with
    (o <? a - m_start m + Z.of_nat (List.length new)) by lia.
  destruct (_ && _); [|reflexivity]. f_equal. lia.
Qed.

(** Writing *)
Definition wbytes (size v : Z) : list Z :=
  if size =? 8 then [v] else if size =? 16 then le16_to_bytes v else le32_to_bytes v.

Lemma wbytes_length : forall size v, size = 8 \/ size = 16 \/ size = 32 ->
  Z.of_nat (List.length (wbytes size v)) = size / 8.
Proof. intros size v [-> | [-> | -> ]]; reflexivity. Qed.
Lemma wbytes_byte : forall w, wr_ok w -> Forall is_byte (wbytes (w_size w) (w_val w)).
Proof.
  intros w [[-> H]|[-> | -> ]]; unfold wbytes; cbn [Z.eqb Pos.eqb].
  - constructor; [exact H|constructor].
  - rewrite le16_to_bytes_eq. repeat (apply Forall_cons; [unfold is_byte; apply Z.mod_pos_bound; lia|]). apply Forall_nil.
  - rewrite le32_to_bytes_eq. repeat (apply Forall_cons; [unfold is_byte; apply Z.mod_pos_bound; lia|]). apply Forall_nil.
Qed.
Lemma wbytes_nth : forall w k, wr_ok w -> 0 <= k < w_size w / 8 ->
  nth_error (wbytes (w_size w) (w_val w)) (Z.to_nat k) = Some ((w_val w / 256 ^ k) mod 256).
Proof.
  intros w k [[-> H]|[-> | -> ]] Hk; unfold wbytes; cbn [Z.eqb Pos.eqb].
  - change (8 / 8) with 1 in Hk. replace k with 0 by lia. cbn [Z.to_nat nth_error]. rewrite Z.pow_0_r, Z.div_1_r, Z.mod_small by lia. reflexivity.
  - change (16 / 8) with 2 in Hk. rewrite le16_to_bytes_eq. assert (C : k = 0 \/ k = 1) by lia.
    destruct C as [-> | -> ]; cbn [Z.to_nat nth_error]; [rewrite Z.pow_0_r, Z.div_1_r|rewrite Z.pow_1_r]; reflexivity.
  - change (32 / 8) with 4 in Hk. rewrite le32_to_bytes_eq. assert (C : k = 0 \/ k = 1 \/ k = 2 \/ k = 3) by lia.
    destruct C as [-> | [-> | [-> | -> ]]]; [rewrite Z.pow_0_r, Z.div_1_r|rewrite Z.pow_1_r| |]; reflexivity.
Qed.

Lemma write_located : forall c w i m, mem_ok c -> located c (w_addr w) i m -> wr_ok w ->
  mock_write_memory c (w_addr w) (w_val w) (w_size w) =
  Ok (put c i m (w_addr w - m_start m) (wbytes (w_size w) (w_val w))).
Proof.
  intros c w i m H L Hw. destruct (located_bounds c _ i m H L) as [_ B].
  unfold mock_write_memory. rewrite (find_mem_located _ _ _ _ L).
  pose proof (wbytes_byte w Hw) as HB.
  pose proof (fun new => list_setslice_ok (m_data m) (w_addr w - m_start m) new ltac:(lia)) as S.
  destruct Hw as [[E Hv]|[E|E]]; rewrite E in *; cbn [Z.eqb Pos.eqb wbytes] in *;
  unfold wbytes in *; cbn [Z.eqb Pos.eqb] in *.
  - specialize (S _ HB). cbn [List.length] in S. change (Z.of_nat 1) with 1 in S. rewrite S. reflexivity.
  - specialize (S _ HB). change (Z.of_nat (List.length (le16_to_bytes (w_val w)))) with 2 in S. rewrite S. reflexivity.
  - specialize (S _ HB). change (Z.of_nat (List.length (le32_to_bytes (w_val w)))) with 4 in S. rewrite S. reflexivity.
Qed.
Lemma write_unmapped : forall c a v s, unmapped c a -> mock_write_memory c a v s = Ok c.
Proof. intros. unfold mock_write_memory. rewrite find_mem_unmapped by assumption. reflexivity. Qed.

(** Reading *)
Lemma take_cells_slice : forall c i m n o, nth_error (c_mem c) i = Some m -> 0 <= o ->
  take_cells c i o n =
  let l := firstn n (skipn (Z.to_nat o) (m_data m)) in
  if Nat.eqb (List.length l) n then Some l else None.
Proof.
  intros c i m n. induction n as [|n IH]; intros o Hm Ho; [reflexivity|].
  cbn [take_cells]. rewrite IH by (assumption || lia). unfold cell. rewrite Hm. replace (o <? 0) with false by lia.
  replace (Z.to_nat (o + 1)) with (S (Z.to_nat o)) by lia. cbv zeta.
  destruct (skipn (Z.to_nat o) (m_data m)) as [|x t] eqn:E.
  - cbn [firstn List.length Nat.eqb]. destruct (nth_error (m_data m) (Z.to_nat o)) eqn:N; [|reflexivity].
    apply (f_equal (fun l => nth_error l 0)) in E. rewrite nth_skipn, Nat.add_0_r, N in E. discriminate.
  - pose proof (f_equal (fun l => nth_error l 0) E) as E0. cbn beta in E0. rewrite nth_skipn, Nat.add_0_r in E0.
    rewrite E0. cbn [nth_error].
    assert (Et : skipn (S (Z.to_nat o)) (m_data m) = t).
    { clear -E. revert E. generalize (m_data m). generalize (Z.to_nat o). intros k l. revert l.
      induction k as [|k IH]; intros [|y l] E; cbn [skipn] in *; try discriminate; [congruence|].
      apply IH in E. exact E. }
    rewrite Et. cbn [firstn List.length Nat.eqb]. destruct (Nat.eqb _ n); reflexivity.
Qed.

Lemma take_cells_bytes : forall c i n o l, mem_ok c -> take_cells c i o n = Some l ->
  Forall is_byte l /\ List.length l = n.
Proof.
  intros c i n. induction n as [|n IH]; intros o l H E; cbn [take_cells] in E.
  - injection E as <-. split; [constructor|reflexivity].
  - destruct (cell c i o) as [b|] eqn:C; [|discriminate]. destruct (take_cells c i (o + 1) n) as [l'|] eqn:T; [|discriminate].
    injection E as <-. destruct (IH _ _ H T) as [F L]. split; [|cbn [List.length]; congruence].
    constructor; [|exact F]. unfold cell in C. destruct (nth_error (c_mem c) i) as [m|] eqn:M; [|discriminate].
    destruct (o <? 0); [discriminate|]. unfold mem_ok in H. rewrite Forall_forall in H.
    destruct (H m (nth_error_In _ _ M)) as [HB _]. rewrite Forall_forall in HB. apply HB, (nth_error_In _ _ C).
Qed.

Lemma read_located : forall c a size i m, mem_ok c -> located c a i m -> size = 8 \/ size = 16 \/ size = 32 ->
  read_memory c (NInt a) size =
  match take_cells c i (a - m_start m) (Z.to_nat (size / 8)) with
  | Some l => Ok (bits size (le_number l))
  | None => Err IndexError
  end.
Proof.
  intros c a size i m H L Hs. destruct (located_bounds c a i m H L) as [[HB _] B].
  unfold read_memory, mock_read_memory. cbn [num_val]. rewrite (find_mem_located _ _ _ _ L).
  pose proof (fun n o => take_cells_slice c i m n o (proj1 L)) as T.
  assert (LF : forall n, Forall is_byte (firstn n (skipn (Z.to_nat (a - m_start m)) (m_data m)))).
  { intros n. rewrite Forall_forall in *. intros x Hx. apply HB.
    rewrite <- (firstn_skipn (Z.to_nat (a - m_start m)) (m_data m)). apply in_or_app. right.
    rewrite <- (firstn_skipn n (skipn _ _)). apply in_or_app. left. exact Hx. }
  destruct Hs as [-> | [-> | -> ]]; cbn [Z.eqb Pos.eqb].
  - change (Z.to_nat (8 / 8)) with 1%nat. rewrite T by lia. cbv zeta. rewrite list_slice_ok by lia.
    change (Z.to_nat 1) with 1%nat. specialize (LF 1%nat).
    destruct (skipn (Z.to_nat (a - m_start m)) (m_data m)) as [|x t] eqn:E.
    + apply (f_equal (@List.length Z)) in E. rewrite skipn_length in E. cbn [List.length] in E. lia.
    + cbn [firstn List.length Nat.eqb bind]. cbn [firstn] in LF. inversion LF as [|? ? Hx _]; subst.
      unfold bs_init, bs_raw, reduce_bits. cbn [List.length fold_left bind le_number].
      rewrite Z.mul_0_r, Z.add_0_r. apply finish_ok. lia.
  - change (Z.to_nat (16 / 8)) with 2%nat. rewrite T by lia. cbv zeta. rewrite list_slice_ok by lia.
    change (Z.to_nat 2) with 2%nat. specialize (LF 2%nat).
    set (l := firstn 2 _) in *. assert (LL : (List.length l <= 2)%nat) by (unfold l; rewrite firstn_length; lia).
    destruct l as [|x [|y [|z t]]]; cbn [List.length Nat.eqb] in *; try reflexivity; [|lia].
    inversion LF as [|? ? Hx LF']; subst. inversion LF' as [|? ? Hy _]; subst.
    unfold bytes_to_le16. cbn [py_nth List.length]. change (py_nth [x; y] 0) with (Ok x). change (py_nth [x; y] (0 + 1)) with (Ok y).
    cbn [bind]. rewrite le16_val by exact Hx. rewrite init_int by lia. cbn [le_number]. f_equal. f_equal. lia.
  - change (Z.to_nat (32 / 8)) with 4%nat. rewrite T by lia. cbv zeta. rewrite list_slice_ok by lia.
    change (Z.to_nat 4) with 4%nat. specialize (LF 4%nat).
    set (l := firstn 4 _) in *. assert (LL : (List.length l <= 4)%nat) by (unfold l; rewrite firstn_length; lia).
    destruct l as [|x [|y [|z [|u [|? ?]]]]]; cbn [List.length Nat.eqb] in *; try reflexivity; [|lia].
    inversion LF as [|? ? Hx LF']; subst. inversion LF' as [|? ? Hy LF'']; subst. inversion LF'' as [|? ? Hz _]; subst.
    unfold bytes_to_le32. change (py_nth [x; y; z; u] 0) with (Ok x). change (py_nth [x; y; z; u] (0 + 1)) with (Ok y).
    change (py_nth [x; y; z; u] (0 + 2)) with (Ok z). change (py_nth [x; y; z; u] (0 + 3)) with (Ok u).
    cbn [bind]. rewrite le32_val by assumption. rewrite init_int by lia. cbn [le_number]. f_equal. f_equal. lia.
Qed.

Lemma read_unmapped : forall c a size, unmapped c a -> 0 <= size -> read_memory c (NInt a) size = Ok (bits size 0).
Proof.
  intros. unfold read_memory, mock_read_memory. cbn [num_val]. rewrite find_mem_unmapped by assumption.
  cbn [bind]. apply init_int. lia.
Qed.

(** ** Layout determines location *)
Lemma located_layout : forall c a i m, located c a i m ->
  forall c', layout c' = layout c -> exists m', located c' a i m' /\ m_start m' = m_start m /\ m_end m' = m_end m.
Proof.
  intros c a i m (L1 & L2 & L3) c' E.
  assert (N : forall j, option_map (fun m => (m_start m, m_end m)) (nth_error (c_mem c') j) =
                        option_map (fun m => (m_start m, m_end m)) (nth_error (c_mem c) j)).
  { intros j. rewrite <- !nth_error_map. fold (layout c) (layout c'). rewrite E. reflexivity. }
  pose proof (N i) as Ni. rewrite L1 in Ni. destruct (nth_error (c_mem c') i) as [m'|] eqn:E'; [|discriminate].
  cbn [option_map] in Ni. injection Ni as S1 S2. exists m'. split; [|auto]. split; [exact E'|].
  split; [unfold in_region in *; lia|]. intros j m0 Hj Hm0 R. pose proof (N j) as Nj. rewrite Hm0 in Nj.
  destruct (nth_error (c_mem c) j) as [m1|] eqn:E1; [|discriminate]. cbn [option_map] in Nj. injection Nj as S3 S4.
  apply (L3 j m1 Hj E1). unfold in_region in *. lia.
Qed.
Lemma unmapped_layout : forall c c' a, unmapped c a -> layout c' = layout c -> unmapped c' a.
Proof.
  intros c c' a U E. destruct (located_or_unmapped c' a) as [(i & m & L)|U']; [|exact U'].
  exfalso. destruct (located_layout _ _ _ _ L c (eq_sym E)) as (m' & L' & _). destruct L' as (A & B & _).
  exact (U m' (nth_error_In _ _ A) B).
Qed.

(** ** Flags *)
Lemma xpsr_bits : forall c, regs_ok c -> get_xpsr c = Ok (bits 32 (reg c 16)).
Proof. intros. apply read_index; [reflexivity|assumption|left; lia]. Qed.

From Verif Require Import SpecArm HelpFacts.

Lemma put_bit_testbit : forall x i b j, 0 <= i -> 0 <= j ->
  Z.testbit (put_bit x i b) j = if j =? i then b else Z.testbit x j.
Proof.
  intros x i b j Hi Hj. unfold put_bit. destruct b.
  - rewrite Z.setbit_eqb by lia. rewrite (Z.eqb_sym i j). destruct (j =? i); reflexivity.
  - rewrite Z.clearbit_eqb. rewrite (Z.eqb_sym i j). destruct (j =? i); [apply andb_false_r|apply andb_true_r].
Qed.
Lemma put_bit_range : forall x i b w, 0 <= i < w -> 0 <= x < 2 ^ w -> 0 <= put_bit x i b < 2 ^ w.
Proof.
  intros x i b w Hi Hx.
  assert (P : 0 <= put_bit x i b).
  { unfold put_bit. destruct b; [rewrite Z.setbit_spec'; apply Z.lor_nonneg; split; [lia|apply Z.pow_nonneg; lia]|].
    rewrite Z.clearbit_spec'. apply Z.ldiff_nonneg. lia. }
  split; [exact P|]. replace (put_bit x i b) with (put_bit x i b mod 2 ^ w); [apply Z.mod_pos_bound, pow2_pos; lia|].
  apply Z.bits_inj'. intros j Hj. rewrite testbit_mod by lia. destruct (Z.ltb_spec j w); [reflexivity|].
  rewrite put_bit_testbit by lia. replace (j =? i) with false by lia. symmetry. apply (testbit_small x w); lia.
Qed.

Lemma flag_bit_range : forall f, 28 <= flag_bit f <= 31.
Proof. intros []; cbn; lia. Qed.

Lemma apsr_get_ok : forall c f, regs_ok c -> apsr_get c f = Ok (bitv (Z.testbit (reg c 16) (flag_bit f))).
Proof.
  intros c f H. pose proof (flag_bit_range f). unfold apsr_get. rewrite xpsr_bits by assumption. cbn [bind bs_getitem].
  rewrite get_bit_bitv by lia. cbn [bits bv]. rewrite testbit_mod by lia. replace (flag_bit f <? 32) with true by lia. reflexivity.
Qed.

Lemma apsr_set_ok : forall c f value b, regs_ok c -> bs_init value (Some 1) = Ok (bitv b) ->
  apsr_set c f value = Ok (mock_write_register c (Some 16) (put_bit (reg c 16) (flag_bit f) b)).
Proof.
  intros c f value b H E. pose proof (flag_bit_range f) as F.
  destruct (regs_ok_reg c 16 H ltac:(left; lia)) as [_ R].
  unfold apsr_set. rewrite xpsr_bits by assumption. cbn [bind]. rewrite E. cbn [bind bs_setitem].
  destruct (setbit_ok (bits 32 (reg c 16)) (flag_bit f) (VBits (bitv b)) (if b then 1 else 0)) as (r & E1 & W & Wd & B).
  { apply wf_bits; lia. } { cbn [bits bw]. lia. } { reflexivity. }
  rewrite E1. cbn [bind]. unfold set_xpsr, write_register. cbn [num_val]. do 2 f_equal. unfold bs_unsigned.
  cbn [bits bw] in Wd, B. destruct W as (_ & W & _). rewrite Wd in W.
  apply (bits_ext _ _ 32); [exact W|apply put_bit_range; lia|].
  intros j Hj. rewrite put_bit_testbit by lia. unfold bit in B. rewrite B by lia. replace (flag_bit f <? 0) with false by lia.
  destruct (j =? flag_bit f); [destruct b; reflexivity|].
  cbn [bits bv]. rewrite testbit_mod by lia. replace (j <? 32) with true by lia. reflexivity.
Qed.

Lemma init1_bits : forall x, wf x -> bs_init (VBits x) (Some 1) = Ok (bitv (Z.testbit (bv x) 0)).
Proof.
  intros x Hx. unfold bs_init, bs_raw. cbn [bind]. rewrite finish_ok by lia. f_equal. unfold bits, bitv. f_equal.
  change (2 ^ 1) with 2. rewrite Zmod_odd, <- Z.bit0_odd. destruct (Z.testbit (bv x) 0); reflexivity.
Qed.
Lemma init1_int : forall z, bs_init (VInt z) (Some 1) = Ok (bitv (Z.odd z)).
Proof.
  intros z. rewrite init_int by lia. f_equal. unfold bits, bitv. f_equal. change (2 ^ 1) with 2. rewrite Zmod_odd. destruct (Z.odd z); reflexivity.
Qed.
Lemma init1_bitv : forall b, bs_init (VBits (bitv b)) (Some 1) = Ok (bitv b).
Proof. intros []; reflexivity. Qed.
