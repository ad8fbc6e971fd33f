(** * Properties C34-C39: machine state *)
From Verif Require Import BitstringModel SpecBits SpecArm BitFacts BitOps BitText BitMisc HelpersModel HelpFacts UtilFacts.
From Verif Require Import CpuModel SpecCpu CpuFacts.
From Coq Require Import Lia ZifyBool.
(*@imports
From Verif Require Import BitstringModel SpecBits SpecArm HelpersModel CpuModel SpecCpu CpuThms.
@*)

(*@doc C34: a read of 8, 16 or 32 bits at a mapped address returns the bytes stored
there, least significant first; IndexError if the region ends before them. @*)
Lemma C34_read_proof : forall c a size i m, mem_ok c -> located c a i m -> size = 8 \/ size = 16 \/ size = 32 ->
  read_memory c (NInt a) size =
  match take_cells c i (a - m_start m) (Z.to_nat (size / 8)) with
  | Some l => Ok (bits size (le_number l))
  | None => Err IndexError
  end.
Proof. exact read_located. Qed.
(*@ex
Example C34_read_ex : mem_ok ex_cpu /\ located ex_cpu 257 1 (mkmem 256 259 [17; 34; 51; 68]) /\
  read_memory ex_cpu (NInt 257) 16 = Ok (bits 16 13090) /\ read_memory ex_cpu (NInt 257) 32 = Err IndexError.
Proof.
  split; [repeat constructor; discriminate|]. split; [|split; reflexivity].
  split; [reflexivity|]. split; [split; discriminate|]. intros [|[|j]] m' Hj E.
  - injection E as <-. intros [_ H]. apply H. reflexivity.
  - inversion Hj. inversion H0.
  - inversion Hj. inversion H0.
Qed.
@*)

(*@doc C34: what was written is read back, modulo 2^size. @*)
Lemma C34_read_after_write_proof : forall c a v size i m, mem_ok c -> located c a i m ->
  (size = 8 /\ 0 <= v < 256) \/ size = 16 \/ size = 32 ->
  exists c', write_memory c (NInt a) (NInt v) size = Ok c' /\ read_memory c' (NInt a) size = Ok (bits size v).
Proof.
  intros c a v size i m H L Hs. pose (w := mkwr a v size). assert (Hw : wr_ok w) by exact Hs.
  assert (Hs' : size = 8 \/ size = 16 \/ size = 32) by lia.
  unfold write_memory. cbn [num_val]. eexists. split; [exact (write_located c w i m H L Hw)|].
  set (c' := put c i m _ _).
  assert (H' : mem_ok c') by (apply put_mem_ok; [exact H|exact L|exact (wbytes_byte w Hw)]).
  destruct (located_layout c a i m L c') as (m' & L' & S1 & _); [apply put_layout|].
  rewrite (read_located c' a size i m' H' L' Hs'). rewrite S1.
  assert (C : forall k, 0 <= k < size / 8 -> cell c' i (a - m_start m + k) = Some ((v / 256 ^ k) mod 256)).
  { intros k Hk. unfold c'. cbn [w_addr w]. rewrite put_cell by assumption. cbv zeta. rewrite wbytes_length by exact Hs'. cbn [w_size w_val w].
    rewrite Nat.eqb_refl. replace (a - m_start m <=? a - m_start m + k) with true by lia.
    replace (a - m_start m + k <? a - m_start m + size / 8) with true by lia. cbn [andb].
    replace (a - m_start m + k - (a - m_start m)) with k by lia. exact (wbytes_nth w k Hw Hk). }
  destruct Hs' as [-> | [-> | -> ]].
  - change (8 / 8) with 1 in C. change (Z.to_nat (8 / 8)) with 1%nat. cbn [take_cells].
    pose proof (C 0 ltac:(lia)) as C0. rewrite Z.add_0_r in C0. rewrite C0.
    rewrite Z.pow_0_r, Z.div_1_r. cbn [le_number]. rewrite Z.mul_0_r, Z.add_0_r. f_equal. exact (bits_mod_eq 8 v ltac:(lia)).
  - change (16 / 8) with 2 in C. change (Z.to_nat (16 / 8)) with 2%nat. cbn [take_cells].
    pose proof (C 0 ltac:(lia)) as C0. rewrite Z.add_0_r in C0. rewrite C0, C by lia.
    rewrite Z.pow_0_r, Z.div_1_r, Z.pow_1_r. cbn [le_number]. rewrite Z.mul_0_r, Z.add_0_r.
    rewrite <- split16. f_equal. exact (bits_mod_eq 16 v ltac:(lia)).
  - change (32 / 8) with 4 in C. change (Z.to_nat (32 / 8)) with 4%nat. cbn [take_cells].
    pose proof (C 0 ltac:(lia)) as C0. rewrite Z.add_0_r in C0. rewrite C0.
    replace (a - m_start m + 1 + 1 + 1) with (a - m_start m + 3) by lia.
    replace (a - m_start m + 1 + 1) with (a - m_start m + 2) by lia. rewrite !C by lia.
    rewrite Z.pow_0_r, Z.div_1_r, Z.pow_1_r. cbn [le_number]. change (256 ^ 2) with 65536. change (256 ^ 3) with 16777216.
    f_equal. rewrite <- (bits_mod_eq 32 v) by lia. f_equal. rewrite split32. lia.
Qed.
(*@ex
Example C34_read_after_write_ex : exists c', write_memory ex_cpu (NInt 2) (NInt (-2)) 32 = Ok c' /\
  read_memory c' (NInt 2) 32 = Ok (bits 32 4294967294) /\ read_memory c' (NInt 5) 16 = Ok (bits 16 2047).
Proof. eexists. split; [reflexivity|]. split; reflexivity. Qed.
@*)

(*@doc C34, histories: after any sequence of writes each byte of each region is the
one put there by the last write covering it, otherwise the initial one. @*)
Lemma C34_history_proof : forall c ws, mem_ok c -> Forall wr_ok ws ->
  exists c', run_writes c ws = Ok c' /\ mem_ok c' /\ layout c' = layout c /\ c_regs c' = c_regs c /\
  forall i o b, cell c' i o = b <-> last_byte c i o ws b.
Proof.
  intros c ws H HF.
  assert (S : forall c0 ws c1, run_writes c0 ws = Ok c1 -> forall w, run_writes c0 (ws ++ [w]) =
    write_memory c1 (NInt (w_addr w)) (NInt (w_val w)) (w_size w)).
  { clear. intros c0 ws. revert c0. induction ws as [|w0 ws IH]; intros c0 c1 E w; cbn [run_writes app] in *.
    - injection E as <-. destruct (write_memory _ _ _ _); reflexivity.
    - destruct (write_memory c0 _ _ _) as [c2|e]; cbn [bind] in *; [|discriminate]. apply IH, E. }
  assert (D : forall i o ws b b', last_byte c i o ws b -> last_byte c i o ws b' -> b = b').
  { clear. intros i o ws b b' L. revert b'. induction L as [|ws w v W|ws w b W L IH]; intros b' L'; inversion L' as [E|ws' w' v' W' E|ws' w' b0 W' L0 E]; subst;
    try reflexivity; try (exfalso; destruct ws; discriminate); try (exfalso; destruct ws'; discriminate);
    try (apply app_inj_tail in E as [-> ->]).
    - destruct W as (m & L1 & B1 & ->), W' as (m' & L2 & B2 & ->). destruct (located_fun _ _ _ _ _ _ L1 L2) as [_ <-]. reflexivity.
    - exfalso. exact (W' v W).
    - exfalso. exact (W v' W').
    - apply IH, L0. }
  enough (E : exists c', run_writes c ws = Ok c' /\ mem_ok c' /\ layout c' = layout c /\ c_regs c' = c_regs c /\
              forall i o, last_byte c i o ws (cell c' i o)).
  { destruct E as (c' & E1 & E2 & E3 & E4 & E5). exists c'. repeat (split; [assumption|]). intros i o b. split.
    - intros <-. apply E5.
    - intros L. exact (D _ _ _ _ _ (E5 i o) L). }
  revert HF. induction ws as [|w ws IH] using rev_ind; intros HF.
  { exists c. repeat split; try assumption. constructor. }
  apply Forall_app in HF as [HF HW]. inversion HW as [|? ? Hw _]; subst.
  destruct (IH HF) as (c1 & R1 & R2 & R3 & R4 & R5). rewrite (S _ _ _ R1). unfold write_memory. cbn [num_val].
  destruct (located_or_unmapped c1 (w_addr w)) as [(i0 & m & L)|U].
  - rewrite (write_located c1 w i0 m R2 L Hw). eexists. split; [reflexivity|].
    split; [apply put_mem_ok; [exact R2|exact L|exact (wbytes_byte w Hw)]|].
    split; [rewrite put_layout; exact R3|]. split; [exact R4|]. intros i o.
    rewrite put_cell by assumption. cbv zeta.
    assert (Hs : w_size w = 8 \/ w_size w = 16 \/ w_size w = 32) by (destruct Hw; lia).
    rewrite wbytes_length by exact Hs.
    destruct (located_layout c1 _ _ _ L c (eq_sym R3)) as (m0 & L0 & S1 & _).
    destruct (_ && _ && _) eqn:E.
    + rewrite wbytes_nth by (try exact Hw; lia). apply last_hit. replace i with i0 by lia. exists m0. split; [exact L0|]. cbv zeta. rewrite S1.
      split; [lia|reflexivity].
    + apply last_miss; [|apply R5]. intros v (m1 & L1 & B1 & _). cbv zeta in B1.
      destruct (located_fun _ _ _ _ _ _ L0 L1) as [-> <-]. rewrite S1 in B1.
      rewrite Nat.eqb_refl in E. lia.
  - rewrite write_unmapped by exact U. exists c1. split; [reflexivity|]. repeat (split; [assumption|]).
    intros i o. apply last_miss; [|apply R5]. intros v (m1 & L1 & _).
    destruct (located_layout c _ _ _ L1 c1 R3) as (m2 & (A & B & _) & _). exact (U m2 (nth_error_In _ _ A) B).
Qed.
(*@ex
Example C34_history_ex : exists c', run_writes ex_cpu [mkwr 0 2863311530 32; mkwr 1 255 8; mkwr 3 4660 16] = Ok c' /\
  c_mem c' = [mkmem 0 7 [170; 255; 170; 52; 18; 6; 7; 8]; mkmem 256 259 [17; 34; 51; 68]].
Proof. eexists. split; reflexivity. Qed.
@*)

(*@doc C34: an address or a value given as a bitstring means its unsigned value. @*)
Lemma C34_bitstring_arguments_proof : forall c a v size,
  read_memory c (NBits a) size = read_memory c (NInt (bv a)) size /\
  (forall d, write_memory c (NBits a) d size = write_memory c (NInt (bv a)) d size) /\
  (forall d, write_memory c d (NBits v) size = write_memory c d (NInt (bv v)) size).
Proof. intros. repeat split. Qed.
(*@ex
Example C34_bitstring_arguments_ex : read_memory ex_cpu (NBits (bits 32 258)) 8 = Ok (bits 8 51).
Proof. reflexivity. Qed.
@*)

(*@doc C34: the fixed-size accessors. @*)
Lemma C34_sized_proof : forall c a v,
  read8 c a = read_memory c a 8 /\ read16 c a = read_memory c a 16 /\ read32 c a = read_memory c a 32 /\
  write8 c a v = write_memory c a v 8 /\ write16 c a v = write_memory c a v 16 /\ write32 c a v = write_memory c a v 32.
Proof. intros. repeat split. Qed.
(*@ex
Example C34_sized_ex : read8 ex_cpu (NInt 1) = Ok (bits 8 2) /\ read16 ex_cpu (NInt 1) = Ok (bits 16 770).
Proof. split; reflexivity. Qed.
@*)

(*@doc C34: a byte write of a number that is not a byte is rejected; sizes other
than 8, 16, 32 write nothing and read as 0. @*)
Lemma C34_rejects_proof : forall c a v size i m, mem_ok c -> located c a i m ->
  (~ 0 <= v < 256 -> write_memory c (NInt a) (NInt v) 8 = Err ValueError) /\
  (size <> 8 -> size <> 16 -> size <> 32 ->
   write_memory c (NInt a) (NInt v) size = Ok c /\
   (0 <= size -> read_memory c (NInt a) size = Ok (bits size 0))).
Proof.
  intros c a v size i m H L. destruct (located_bounds c a i m H L) as [_ B]. split.
  - intros Hv. unfold write_memory, mock_write_memory. cbn [num_val]. rewrite (find_mem_located _ _ _ _ L).
    cbn [Z.eqb Pos.eqb]. unfold list_setslice. rewrite slice_indices_sl by lia. cbn [bind forallb]. rewrite andb_true_r.
    unfold byte_ok. replace ((0 <=? v) && (v <? 256)) with false by lia. reflexivity.
  - intros H8 H16 H32. unfold write_memory, read_memory, mock_write_memory, mock_read_memory. cbn [num_val].
    rewrite (find_mem_located _ _ _ _ L).
    replace (size =? 8) with false by lia. replace (size =? 16) with false by lia. replace (size =? 32) with false by lia.
    split; [reflexivity|]. intros Hs. cbn [bind]. apply init_int, Hs.
Qed.
(*@ex
Example C34_rejects_ex : write_memory ex_cpu (NInt 1) (NInt 256) 8 = Err ValueError /\
  read_memory ex_cpu (NInt 1) 24 = Ok (bits 24 0).
Proof. split; reflexivity. Qed.
@*)

(*@doc C34: blocks.  A block write that starts in a mapped region is read back, and
changes exactly the bytes it covers. @*)
Lemma C34_block_proof : forall c a data i m, mem_ok c -> located c a i m -> Forall (fun x => 0 <= x < 256) data ->
  exists c', write_memory_block c a data = Ok c' /\
    read_memory_block c' a (Z.of_nat (List.length data)) = Some data /\
    mem_ok c' /\ layout c' = layout c /\ c_regs c' = c_regs c /\
    forall j o, cell c' j o =
      let off := a - m_start m in
      if (Nat.eqb j i && (off <=? o) && (o <? off + Z.of_nat (List.length data)))%bool
      then nth_error data (Z.to_nat (o - off)) else cell c j o.
Proof.
  intros c a data i m H L HF. destruct (located_bounds c a i m H L) as [_ B].
  exists (put c i m (a - m_start m) data). split.
  { unfold write_memory_block. rewrite (find_mem_located _ _ _ _ L). rewrite list_setslice_ok by (try exact HF; lia). reflexivity. }
  split.
  - destruct (located_layout c a i m L (put c i m (a - m_start m) data) (put_layout _ _ _ _ _)) as (m' & L' & S1 & _).
    unfold read_memory_block. rewrite (find_mem_located _ _ _ _ L'). f_equal.
    destruct L' as (N & _). unfold put, set_data in N. cbn [c_mem] in N. rewrite nth_list_update, Nat.eqb_refl in N.
    destruct L as (N0 & _). rewrite N0 in N. cbn [option_map] in N. injection N as <-. cbn [m_data m_start].
    rewrite list_slice_ok by lia.
    assert (L1 : List.length (firstn (Z.to_nat (a - m_start m)) (m_data m)) = Z.to_nat (a - m_start m)) by (rewrite firstn_length; lia).
    rewrite skipn_app, L1, Nat.sub_diag. rewrite skipn_all2 by lia. cbn [skipn app].
    rewrite Nat2Z.id, firstn_app, Nat.sub_diag. rewrite firstn_all. cbn [firstn]. apply app_nil_r.
  - split; [apply put_mem_ok; assumption|]. split; [apply put_layout|]. split; [reflexivity|].
    intros j o. apply put_cell; assumption.
Qed.
(*@ex
Example C34_block_ex : exists c', write_memory_block ex_cpu 258 [9; 8; 7] = Ok c' /\
  read_memory_block c' 257 4 = Some [34; 9; 8; 7].
Proof. eexists. split; reflexivity. Qed.
@*)

(*@doc C34: block reads return the stored bytes that exist, in address order. @*)
Lemma C34_block_read_proof : forall c a n i m, mem_ok c -> located c a i m -> 0 <= n ->
  read_memory_block c a n = Some (firstn (Z.to_nat n) (skipn (Z.to_nat (a - m_start m)) (m_data m))).
Proof.
  intros c a n i m H L Hn. destruct (located_bounds c a i m H L) as [_ B].
  unfold read_memory_block. rewrite (find_mem_located _ _ _ _ L). rewrite list_slice_ok by lia. reflexivity.
Qed.
(*@ex
Example C34_block_read_ex : read_memory_block ex_cpu 6 10 = Some [7; 8].
Proof. reflexivity. Qed.
@*)

(*@doc C35: a write changes exactly the bytes [addr, addr+size/8) of the region
containing addr; other bytes, regions, address ranges and registers stay. @*)
Lemma C35_write_proof : forall c a v size i m, mem_ok c -> located c a i m ->
  (size = 8 /\ 0 <= v < 256) \/ size = 16 \/ size = 32 ->
  exists c', write_memory c (NInt a) (NInt v) size = Ok c' /\
    c_regs c' = c_regs c /\ layout c' = layout c /\ mem_ok c' /\
    forall j o, cell c' j o =
      let off := a - m_start m in
      if (Nat.eqb j i && (off <=? o) && (o <? off + size / 8))%bool
      then Some ((v / 256 ^ (o - off)) mod 256) else cell c j o.
Proof.
  intros c a v size i m H L Hs. pose (w := mkwr a v size). assert (Hw : wr_ok w) by exact Hs.
  assert (Hs' : size = 8 \/ size = 16 \/ size = 32) by lia.
  unfold write_memory. cbn [num_val]. eexists. split; [exact (write_located c w i m H L Hw)|].
  split; [reflexivity|]. split; [apply put_layout|].
  split; [apply put_mem_ok; [exact H|exact L|exact (wbytes_byte w Hw)]|].
  intros j o. cbn [w_addr w]. rewrite put_cell by assumption. cbv zeta. rewrite wbytes_length by exact Hs'.
  cbn [w_size w_val w]. destruct (_ && _ && _) eqn:E; [|reflexivity].
  apply (wbytes_nth w); [exact Hw|cbn [w_size w]; lia].
Qed.
(*@ex
Example C35_write_ex : exists c', write_memory ex_cpu (NInt 257) (NInt 43981) 16 = Ok c' /\
  c_mem c' = [mkmem 0 7 [1; 2; 3; 4; 5; 6; 7; 8]; mkmem 256 259 [17; 205; 171; 68]].
Proof. eexists. split; reflexivity. Qed.
@*)

(*@doc C35: unmapped addresses ignore writes and read as 0; a block read gives
nothing. @*)
Lemma C35_unmapped_proof : forall c a v size data n, unmapped c a ->
  write_memory c (NInt a) v size = Ok c /\ write_memory_block c a data = Ok c /\
  read_memory_block c a n = None /\ (0 <= size -> read_memory c (NInt a) size = Ok (bits size 0)).
Proof.
  intros c a v size data n U. unfold write_memory. cbn [num_val]. rewrite write_unmapped by exact U.
  unfold write_memory_block, read_memory_block. rewrite find_mem_unmapped by exact U.
  repeat split. intros Hs. apply read_unmapped; assumption.
Qed.
(*@ex
Example C35_unmapped_ex : unmapped ex_cpu 8 /\ read_memory ex_cpu (NInt 8) 32 = Ok (bits 32 0).
Proof.
  split; [|reflexivity]. intros m [<-|[<-|[]]] [A B]; cbn in A, B; [apply B|apply A]; reflexivity.
Qed.
@*)

(*@doc C35: every address is mapped or not; the answer is unique and depends on the
layout only. @*)
Lemma C35_located_proof : forall c a, ((exists i m, located c a i m) \/ unmapped c a) /\
  (forall i m i' m', located c a i m -> located c a i' m' -> i = i' /\ m = m') /\
  (forall i m, located c a i m -> ~ unmapped c a) /\
  (forall c', layout c' = layout c -> unmapped c a -> unmapped c' a).
Proof.
  intros c a. split; [apply located_or_unmapped|]. split; [intros; eapply located_fun; eassumption|].
  split; [|intros; eapply unmapped_layout; eassumption].
  intros i m (A & B & _) U. exact (U m (nth_error_In _ _ A) B).
Qed.
(*@ex
Example C35_located_ex : exists m, located ex_cpu 259 1 m.
Proof.
  eexists. split; [reflexivity|]. split; [split; discriminate|]. intros [|[|j]] m' Hj E.
  - injection E as <-. intros [_ H]. apply H. reflexivity.
  - inversion Hj. inversion H0.
  - inversion Hj. inversion H0.
Qed.
@*)

(*@doc C35: register writes never touch memory and memory writes never touch
registers. @*)
Lemma C35_separate_proof : forall c r v a d size,
  c_mem (write_register c r v) = c_mem c /\
  (forall c', write_memory c a d size = Ok c' -> c_regs c' = c_regs c) /\
  (forall c' data, write_memory_block c (num_val a) data = Ok c' -> c_regs c' = c_regs c).
Proof.
  intros. split; [reflexivity|]. split.
  - intros c' E. unfold write_memory, mock_write_memory in E.
    destruct (find_mem c (num_val a)) as [[[i m] off]|]; [|congruence].
    destruct (size =? 8); [destruct (list_setslice _ _ _ _); cbn in E; congruence || (injection E as <-; reflexivity)|].
    destruct (size =? 16); [destruct (list_setslice _ _ _ _); cbn in E; congruence || (injection E as <-; reflexivity)|].
    destruct (size =? 32); [destruct (list_setslice _ _ _ _); cbn in E; congruence || (injection E as <-; reflexivity)|congruence].
  - intros c' data E. unfold write_memory_block in E.
    destruct (find_mem c (num_val a)) as [[[i m] off]|]; [|congruence].
    destruct (list_setslice _ _ _ _); cbn in E; congruence || (injection E as <-; reflexivity).
Qed.
(*@ex
Example C35_separate_ex : c_mem (write_register ex_cpu (RName "r3") (NInt 5)) = c_mem ex_cpu.
Proof. reflexivity. Qed.
@*)

(*@doc C35: adding a region of zero bytes [start, start+length) keeps everything
else, in particular what was mapped before. @*)
Lemma C35_add_memory_proof : forall c start len, mem_ok c ->
  (len < 0 -> add_memory c start len = Err ValueError) /\
  (0 <= len -> exists c', add_memory c start len = Ok c' /\ mem_ok c' /\ c_regs c' = c_regs c /\
    layout c' = layout c ++ [(start, start + len - 1)] /\
    (forall i o, (i < List.length (c_mem c))%nat -> cell c' i o = cell c i o) /\
    (forall o, cell c' (List.length (c_mem c)) o = if (0 <=? o) && (o <? len) then Some 0 else None) /\
    (forall a i m, located c a i m -> located c' a i m)).
Proof.
  intros c start len H. unfold add_memory. split; intros Hl; [replace (len <? 0) with true by lia; reflexivity|].
  replace (len <? 0) with false by lia. eexists. split; [reflexivity|].
  split. { unfold mem_ok. cbn [c_mem]. apply Forall_app. split; [exact H|]. constructor; [|constructor].
    split; cbn [m_data m_start m_end]; [|rewrite repeat_length; lia].
    apply Forall_forall. intros x Hx. apply repeat_spec in Hx. subst. lia. }
  split; [reflexivity|]. split; [unfold layout; cbn [c_mem]; rewrite map_app; reflexivity|].
  split. { intros i o Hi. unfold cell. cbn [c_mem]. rewrite nth_error_app1 by exact Hi. reflexivity. }
  split.
  - intros o. unfold cell. cbn [c_mem]. rewrite nth_error_app2, Nat.sub_diag by lia. cbn [nth_error m_data].
    destruct (Z.ltb_spec o 0). { replace (0 <=? o) with false by lia. reflexivity. }
    replace (0 <=? o) with true by lia. cbn [andb]. destruct (Z.ltb_spec o len).
    + rewrite nth_error_repeat by lia. reflexivity.
    + apply nth_error_None. rewrite repeat_length. lia.
  - intros a i m (A & B & C). assert (Hi : (i < List.length (c_mem c))%nat) by (apply nth_error_Some; congruence).
    split; [cbn [c_mem]; rewrite nth_error_app1 by exact Hi; exact A|]. split; [exact B|].
    intros j m' Hj E. cbn [c_mem] in E. rewrite nth_error_app1 in E by lia. exact (C j m' Hj E).
Qed.
(*@ex
Example C35_add_memory_ex : exists c', add_memory ex_cpu 4096 2 = Ok c' /\ read_memory c' (NInt 4097) 8 = Ok (bits 8 0) /\
  layout c' = [(0, 7); (256, 259); (4096, 4097)].
Proof. eexists. split; [reflexivity|]. split; reflexivity. Qed.
@*)

(*@doc C36: register names, in any letter case, and their numbers. @*)
Lemma C36_names_proof :
  (forall s t, lower s = lower t -> register_name_to_index (RName s) = register_name_to_index (RName t)) /\
  (forall n, 0 <= n <= 15 -> register_name_to_index (RName ("r" ++ fmt_d n)) = Some n) /\
  (forall n, 0 <= n <= 31 -> register_name_to_index (RName ("s" ++ fmt_d n)) = Some (64 + n)) /\
  map (fun s => register_name_to_index (RName s))
    ["sp"; "lr"; "pc"; "xpsr"; "msp"; "psp"; "control"; "faultmask"; "basepri"; "primask"; "fpscr"]%string
    = map Some [13; 14; 15; 16; 17; 18; -4; -3; -2; -1; 33] /\
  (forall s k, register_name_to_index (RName s) = Some k -> core k) /\
  (forall k, register_name_to_index (RIndex k) = Some k).
Proof.
  split; [intros s t E; cbn [register_name_to_index]; rewrite E; reflexivity|].
  split. { intros n Hn. refine (sweep _ (fun n => register_name_to_index (RName ("r" ++ fmt_d n))) Some 16 _ n _); [vm_compute; reflexivity|lia]. }
  split. { intros n Hn. refine (sweep _ (fun n => register_name_to_index (RName ("s" ++ fmt_d n))) (fun n => Some (64 + n)) 32 _ n _); [vm_compute; reflexivity|lia]. }
  split; [vm_compute; reflexivity|]. split; [|reflexivity].
  intros s k. cbn [register_name_to_index]. generalize (lower s). intros t.
  assert (G : forall d, Forall (fun p : string * Z => core (snd p)) d -> dict_get String.eqb t d = Some k -> core k).
  { induction d as [|[n v] d IH]; intros F E; cbn [dict_get] in E; [discriminate|]. inversion F; subst.
    destruct (String.eqb t n); [injection E as <-; assumption|apply IH; assumption]. }
  apply G. unfold CORE_REGISTER, core. repeat (constructor; [cbn [snd]; lia|]). constructor.
Qed.
(*@ex
Example C36_names_ex : register_name_to_index (RName "R12") = Some 12 /\ register_name_to_index (RName "PRIMASK") = Some (-1) /\
  register_name_to_index (RName "r16") = None.
Proof. repeat split. Qed.
@*)

(*@doc C36: a 32-bit value written to a register is read back under every alias, as
far as the register keeps it. @*)
Lemma C36_read_after_write_proof : forall c w r k v,
  register_name_to_index w = Some k -> register_name_to_index r = Some k -> 0 <= num_val v < 2 ^ 32 ->
  read_register (write_register c w v) r = Ok (bits 32 (kept k (num_val v))).
Proof.
  intros c w r k v Hw Hr Hv. unfold read_register, write_register, mock_read_register.
  rewrite Hw, Hr, mock_write_get. unfold written. rewrite Z.eqb_refl. cbn [orb bind].
  apply init_default, kept_range, Hv.
Qed.
(*@ex
Example C36_read_after_write_ex :
  read_register (write_register ex_cpu (RName "R13") (NInt 4294967295)) (RName "sp") = Ok (bits 32 4294967292) /\
  read_register (write_register ex_cpu (RIndex 14) (NBits (bits 32 77))) (RName "lr") = Ok (bits 32 77).
Proof. split; reflexivity. Qed.
@*)

(*@doc C36: a write changes only that register, and for sp (msp) also msp (sp). @*)
Lemma C36_frame_proof : forall c w k v j, register_name_to_index w = Some k ->
  reg_get (c_regs (write_register c w v)) (Some j) =
    (if written k j then Some (kept k (num_val v)) else reg_get (c_regs c) (Some j)) /\
  c_mem (write_register c w v) = c_mem c.
Proof. intros c w k v j Hw. unfold write_register. rewrite Hw. split; [apply mock_write_get|reflexivity]. Qed.
(*@ex
Example C36_frame_ex :
  reg (write_register ex_cpu (RName "sp") (NInt 103)) 17 = 100 /\ reg (write_register ex_cpu (RName "msp") (NInt 103)) 13 = 100 /\
  reg (write_register ex_cpu (RName "psp") (NInt 103)) 18 = 100 /\ reg (write_register ex_cpu (RName "psp") (NInt 103)) 13 = 0 /\
  reg (write_register ex_cpu (RName "basepri") (NInt 259)) (-2) = 3.
Proof. repeat split. Qed.
@*)

(*@doc C36: reading register k gives its stored content; unknown names and numbers
raise KeyError on reading and disturb no register on writing. @*)
Lemma C36_read_proof : forall c r,
  (forall k v, register_name_to_index r = Some k -> reg_get (c_regs c) (Some k) = Some v ->
     read_register c r = Ok (bits (if 2 ^ 32 <? v then 64 else 32) v)) /\
  (forall k, register_name_to_index r = Some k -> reg_get (c_regs c) (Some k) = None -> read_register c r = Err KeyError) /\
  (register_name_to_index r = None -> forall v j,
     reg_get (c_regs (write_register c r v)) (Some j) = reg_get (c_regs c) (Some j)) /\
  (register_name_to_index r = None -> reg_get (c_regs c) None = None -> read_register c r = Err KeyError).
Proof.
  intros c r. unfold read_register, mock_read_register, write_register. repeat split.
  - intros k v E G. rewrite E, G. cbn [bind]. unfold bs_init, bs_raw. cbn [bind]. change (Z.shiftl 1 32) with (2 ^ 32).
    apply finish_ok. destruct (2 ^ 32 <? v); lia.
  - intros k E G. rewrite E, G. reflexivity.
  - intros E v j. rewrite E. apply mock_write_none.
  - intros E G. rewrite E, G. reflexivity.
Qed.
(*@ex
Example C36_read_ex : read_register ex_cpu (RName "xpsr") = Ok (bits 32 16777216) /\
  read_register ex_cpu (RName "nonsense") = Err KeyError /\ read_register ex_cpu (RIndex 19) = Err KeyError.
Proof. repeat split. Qed.
@*)

(*@doc C36: cpu.r[k] is register number k; above 15 it raises KeyError. @*)
Lemma C36_r_interface_proof : forall c k v,
  (k <= 15 -> r_get c k = read_register c (RIndex k) /\ r_set c k v = Ok (write_register c (RIndex k) v)) /\
  (15 < k -> r_get c k = Err KeyError /\ r_set c k v = Err KeyError).
Proof.
  intros c k v. unfold r_get, r_set, ri_get, ri_set. rewrite !Z.add_0_l. split; intros H.
  - replace (15 <? k) with false by lia. split; reflexivity.
  - replace (15 <? k) with true by lia. split; reflexivity.
Qed.
(*@ex
Example C36_r_interface_ex : exists c', r_set ex_cpu 7 (NInt 99) = Ok c' /\ r_get c' 7 = Ok (bits 32 99) /\
  read_register c' (RName "r7") = Ok (bits 32 99) /\ r_get c' 16 = Err KeyError.
Proof. eexists. split; [reflexivity|]. repeat split. Qed.
@*)

(*@doc C36: the named accessors. @*)
Lemma C36_accessors_proof : forall c v,
  get_pc c = read_register c (RIndex 15) /\ set_pc c v = write_register c (RIndex 15) v /\
  get_lr c = read_register c (RIndex 14) /\ set_lr c v = write_register c (RIndex 14) v /\
  get_sp c = read_register c (RIndex 13) /\ set_sp c v = write_register c (RIndex 13) v /\
  get_msp c = read_register c (RIndex 17) /\ set_msp c v = write_register c (RIndex 17) v /\
  get_psp c = read_register c (RIndex 18) /\ set_psp c v = write_register c (RIndex 18) v /\
  get_xpsr c = read_register c (RIndex 16) /\ set_xpsr c v = write_register c (RIndex 16) v /\
  get_control c = read_register c (RIndex (-4)).
Proof. intros. repeat split. Qed.
(*@ex
Example C36_accessors_ex : get_lr (set_lr ex_cpu (NInt 3)) = Ok (bits 32 3).
Proof. reflexivity. Qed.
@*)

(*@doc C36: derived accessors: pc + 4, the exception number field, privilege. @*)
Lemma C36_derived_proof : forall c, regs_ok c ->
  pc_for_instr c = Ok (bits 32 (reg c 15 + 4)) /\
  get_ipsr c = Ok (bits 6 (reg c 16)) /\
  is_privileged c = Ok (negb (Z.odd (reg c (-4)))).
Proof.
  intros c H. split; [|split].
  - unfold pc_for_instr, get_pc. rewrite read_pc by exact H. cbn [bind]. unfold bs_add.
    rewrite (arith_some _ _ _ 4 (reg c 15 + 4)); [reflexivity|apply wf_bits; lia|reflexivity|].
    cbn [bits bv]. rewrite Z.mod_small; [reflexivity|]. apply (regs_ok_reg c 15 H). left. lia.
  - unfold get_ipsr. rewrite xpsr_bits by exact H. cbn [bind bs_getitem].
    rewrite getslice_simple by (try apply wf_bits; cbn [bits bw]; lia).
    cbn [bits bv]. rewrite Z.shiftr_0_r. f_equal. change (6 - 0) with 6. unfold bits. f_equal.
    apply mod_mod_le. lia.
  - unfold is_privileged, get_control. rewrite (read_index c (RName "control") (-4)) by (try assumption; try reflexivity; left; lia).
    cbn [bind bs_getitem]. rewrite get_bit_bitv by lia. cbn [bind bits bv]. rewrite testbit_mod by lia. cbn [Z.ltb Z.compare andb].
    rewrite Z.bit0_odd. destruct (Z.odd _); reflexivity.
Qed.
(*@ex
Example C36_derived_ex : pc_for_instr (set_pc ex_cpu (NInt 4294967294)) = Ok (bits 32 2).
Proof. reflexivity. Qed.
@*)

(*@doc C36, histories: whatever calls are made on the interface with 32-bit values,
every register keeps a 32-bit value, and memory stays well formed. @*)
Lemma C36_invariant_proof : forall c l, regs_ok c -> mem_ok c -> Forall cop_ok l ->
  regs_ok (do_cops c l) /\ mem_ok (do_cops c l).
Proof.
  intros c l. unfold do_cops. revert c. induction l as [|o l IH]; intros c H M F; [split; assumption|].
  inversion F as [|? ? Ho Fl]; subst. cbn [fold_left].
  assert (RK : forall k v, 0 <= v < 2 ^ 32 -> regs_ok (mock_write_register c k v)).
  { intros [k|] v Hv; [apply regs_ok_write; assumption|]. intros j Hj. rewrite mock_write_none. apply H, Hj. }
  apply IH; [| |exact Fl]; destruct o as [r v|k v|k v|f v|a v size|a data|start len]; cbn [do_cop cop_ok] in *.
  - apply RK, Ho.
  - unfold r_set, ri_set. destruct (_ <? _); [exact H|]. apply RK, Ho.
  - unfold s_set, ri_set. destruct (_ <? _); [exact H|]. apply RK, Ho.
  - destruct (apsr_set c f v) as [c'|e] eqn:E; [|exact H]. cbn [after].
    assert (exists b, bs_init v (Some 1) = Ok (bitv b)) as (b & Eb).
    { unfold apsr_set in E. rewrite xpsr_bits in E by exact H. cbn [bind] in E.
      destruct (bs_init v (Some 1)) as [b|e] eqn:Ev; [|discriminate]. exists (Z.odd (bv b)).
      unfold bs_init in Ev. destruct (bs_raw v) as [[w0 v0]|]; [|discriminate]. cbn [bind] in Ev.
      rewrite finish_ok in Ev by lia. injection Ev as <-. f_equal. unfold bits, bitv. f_equal. cbn [bv].
      change (2 ^ 1) with 2. rewrite Zmod_odd. destruct (Z.odd v0); reflexivity. }
    rewrite (apsr_set_ok c f v b H Eb) in E. injection E as <-. apply RK, put_bit_range.
    { pose proof (flag_bit_range f). lia. } apply (regs_ok_reg c 16 H). left. lia.
  - destruct (write_memory c a v size) as [c'|e] eqn:E; [|exact H]. cbn [after].
    apply (proj1 (proj2 (C35_separate_proof c (RIndex 0) v a v size))) in E. unfold regs_ok. rewrite E. exact H.
  - destruct (write_memory_block c a data) as [c'|e] eqn:E; [|exact H]. cbn [after].
    pose proof (proj2 (proj2 (C35_separate_proof c (RIndex 0) (NInt 0) (NInt a) (NInt 0) 0)) c' data E) as E'.
    unfold regs_ok. rewrite E'. exact H.
  - unfold add_memory. destruct (len <? 0); exact H.
  - exact M.
  - unfold r_set, ri_set. destruct (_ <? _); exact M.
  - unfold s_set, ri_set. destruct (_ <? _); exact M.
  - destruct (apsr_set c f v) as [c'|e] eqn:E; [|exact M]. cbn [after]. unfold apsr_set in E.
    destruct (get_xpsr c); [|discriminate]. cbn [bind] in E. destruct (bs_init v (Some 1)); [|discriminate]. cbn [bind] in E.
    destruct (bs_setitem _ _ _); [|discriminate]. cbn [bind] in E. injection E as <-. exact M.
  - unfold write_memory. destruct (located_or_unmapped c (num_val a)) as [(i & m & L)|U];
      [|rewrite write_unmapped by exact U; exact M].
    destruct (Z.eq_dec size 8) as [->|N8].
    { destruct (C34_rejects_proof c (num_val a) (num_val v) 8 i m M L) as [R _].
      unfold write_memory in R. cbn [num_val] in R.
      assert (D : 0 <= num_val v < 256 \/ ~ 0 <= num_val v < 256) by lia. destruct D as [D|D]; [|rewrite R by exact D; exact M].
      pose proof (write_located c (mkwr (num_val a) (num_val v) 8) i m M L) as W; cbn [w_addr w_val w_size] in W; rewrite W by (left; cbn [w_size w_val]; lia).
      apply put_mem_ok; try assumption. apply (wbytes_byte (mkwr (num_val a) (num_val v) 8)). left; cbn [w_size w_val]; lia. }
    destruct (Z.eq_dec size 16) as [->|N16].
    { pose proof (write_located c (mkwr (num_val a) (num_val v) 16) i m M L) as W; cbn [w_addr w_val w_size] in W; rewrite W by (right; left; reflexivity).
      apply put_mem_ok; try assumption. apply (wbytes_byte (mkwr (num_val a) (num_val v) 16)). right; left; reflexivity. }
    destruct (Z.eq_dec size 32) as [->|N32].
    { pose proof (write_located c (mkwr (num_val a) (num_val v) 32) i m M L) as W; cbn [w_addr w_val w_size] in W; rewrite W by (right; right; reflexivity).
      apply put_mem_ok; try assumption. apply (wbytes_byte (mkwr (num_val a) (num_val v) 32)). right; right; reflexivity. }
    destruct (proj2 (C34_rejects_proof c (num_val a) (num_val v) size i m M L) N8 N16 N32) as [R _].
    unfold write_memory in R. cbn [num_val] in R. rewrite R. exact M.
  - destruct (located_or_unmapped c a) as [(i & m & L)|U].
    2:{ unfold write_memory_block. rewrite find_mem_unmapped by exact U. exact M. }
    destruct (forallb byte_ok data) eqn:B.
    + destruct (C34_block_proof c a data i m M L) as (c' & E & _ & M' & _); [|rewrite E; exact M'].
      apply Forall_forall. intros x Hx. rewrite forallb_forall in B. specialize (B x Hx). unfold byte_ok in B. lia.
    + unfold write_memory_block. rewrite (find_mem_located _ _ _ _ L). unfold list_setslice.
      destruct (slice_indices _ _) as [[[? ?] ?]|]; cbn [bind]; [rewrite B|]; exact M.
  - destruct (C35_add_memory_proof c start len M) as [A1 A2].
    destruct (Z.lt_ge_cases len 0) as [Hn|Hp]; [rewrite A1 by exact Hn; exact M|].
    destruct (A2 Hp) as (c' & E & M' & _). rewrite E. exact M'.
Qed.
(*@ex
Example C36_invariant_ex : Forall cop_ok [CopReg (RName "r1") (NInt 4294967295); CopMem (NInt 1) (NInt 300) 16] /\
  let c := do_cops ex_cpu [CopReg (RName "r1") (NInt 4294967295); CopMem (NInt 1) (NInt 300) 16] in
  reg c 1 = 4294967295 /\ read_memory c (NInt 0) 32 = Ok (bits 32 67185665).
Proof. split; [repeat constructor; discriminate|]. split; reflexivity. Qed.
@*)

(*@doc C36: a new machine has every register 0 except xPSR with the Thumb bit, and
no memory. @*)
Lemma C36_fresh_proof : regs_ok cpu_new /\ sp_ok cpu_new /\ mem_ok cpu_new /\ c_mem cpu_new = [] /\
  (forall k, core k -> reg cpu_new k = if k =? 16 then 2 ^ 24 else 0) /\
  (forall k, ~ core k -> reg_get (c_regs cpu_new) (Some k) = None) /\ reg_get (c_regs cpu_new) None = None.
Proof.
  assert (A : forall k, core k -> reg_get (c_regs cpu_new) (Some k) = Some (if k =? 16 then 2 ^ 24 else 0)).
  { intros k Hk.
    assert (I : In k (map (fun x => x - 4) (py_range 100))).
    { apply in_map_iff. exists (k + 4). split; [lia|]. unfold py_range. apply in_map_iff. exists (Z.to_nat (k + 4)).
      unfold core in Hk. split; [lia|apply in_seq; lia]. }
    revert k I Hk. apply (proj1 (Forall_forall (fun k => core k -> reg_get (c_regs cpu_new) (Some k) = Some (if k =? 16 then 2 ^ 24 else 0)) _)).
    change (map (fun x => x - 4) (py_range 100)) with (ltac:(let x := eval vm_compute in (map (fun x => x - 4) (py_range 100)) in exact x)).
    repeat (apply Forall_cons; [intros Hc; unfold core in Hc; first [exfalso; lia | reflexivity]|]). apply Forall_nil. }
  split; [intros k Hk; rewrite (A k Hk); eexists; split; [reflexivity|]; destruct (k =? 16); lia|].
  split; [repeat split|]. split; [constructor|]. split; [reflexivity|]. split; [intros k Hk; unfold reg; rewrite (A k Hk); reflexivity|].
  split; [|reflexivity]. intros k Hk.
  assert (G : forall d : regfile, Forall (fun p => forall j, fst p = Some j -> core j) d -> reg_get d (Some k) = None).
  { induction d as [|[n v] d IH]; intros F; [reflexivity|]. inversion F as [|? ? F1 F2]; subst. unfold reg_get in *. cbn [dict_get].
    destruct (key_eqb (Some k) n) eqn:E; [|apply IH, F2]. apply key_eqb_eq in E. exfalso. apply Hk, F1. symmetry. exact E. }
  apply G. change (c_regs cpu_new) with (ltac:(let x := eval vm_compute in (c_regs cpu_new) in exact x)).
  repeat (apply Forall_cons; [cbn [fst]; intros j E; injection E as <-; unfold core; lia|]). apply Forall_nil.
Qed.
(*@ex
Example C36_fresh_ex : read_register cpu_new (RName "xpsr") = Ok (bits 32 16777216) /\ read_register cpu_new (RName "s31") = Ok (bits 32 0).
Proof. split; reflexivity. Qed.
@*)

(*@doc C37: from a state where sp = msp, both and psp word aligned, every sequence of
interface calls ends in such a state. @*)
Lemma C37_sp_mirror_proof : forall c l, sp_ok c -> sp_ok (do_cops c l).
Proof.
  intros c l. unfold do_cops. revert c. induction l as [|o l IH]; intros c H; [exact H|].
  cbn [fold_left]. apply IH.
  assert (RK : forall k v, sp_ok (mock_write_register c k v)).
  { intros [k|] v; [apply sp_ok_write; assumption|]. unfold sp_ok, reg. rewrite !mock_write_none. exact H. }
  assert (E0 : forall c', c_regs c' = c_regs c -> sp_ok c').
  { intros c' E. unfold sp_ok, reg. rewrite E. exact H. }
  destruct o as [r v|k v|k v|f v|a v size|a data|start len]; cbn [do_cop].
  - apply RK.
  - unfold r_set, ri_set. destruct (_ <? _); [exact H|]. apply RK.
  - unfold s_set, ri_set. destruct (_ <? _); [exact H|]. apply RK.
  - destruct (apsr_set c f v) as [c'|e] eqn:E; [|exact H]. cbn [after]. unfold apsr_set in E.
    destruct (get_xpsr c); [|discriminate]. cbn [bind] in E. destruct (bs_init v (Some 1)); [|discriminate]. cbn [bind] in E.
    destruct (bs_setitem _ _ _); [|discriminate]. cbn [bind] in E. injection E as <-. apply RK.
  - destruct (write_memory c a v size) as [c'|e] eqn:E; [|exact H]. cbn [after]. apply E0.
    exact (proj1 (proj2 (C35_separate_proof c (RIndex 0) v a v size)) _ E).
  - destruct (write_memory_block c a data) as [c'|e] eqn:E; [|exact H]. cbn [after]. apply E0.
    exact (proj2 (proj2 (C35_separate_proof c (RIndex 0) (NInt 0) (NInt a) (NInt 0) 0)) c' data E).
  - unfold add_memory. destruct (len <? 0); exact H.
Qed.
(*@ex
Example C37_sp_mirror_ex : sp_ok cpu_new /\
  let c := do_cops cpu_new [CopReg (RName "sp") (NInt 4099); CopFlag FN (VInt 1); CopR 4 (NInt 7)] in
  reg c 13 = 4096 /\ reg c 17 = 4096 /\ reg c 18 = 0.
Proof. repeat split. Qed.
@*)

(*@doc C37: exact effect of writing a stack pointer: word aligned, and mirrored
between sp and msp; psp stands alone. @*)
Lemma C37_sp_write_proof : forall c v,
  (reg (set_sp c v) 13 = num_val v - num_val v mod 4 /\ reg (set_sp c v) 17 = num_val v - num_val v mod 4 /\ reg (set_sp c v) 18 = reg c 18) /\
  (reg (set_msp c v) 13 = num_val v - num_val v mod 4 /\ reg (set_msp c v) 17 = num_val v - num_val v mod 4 /\ reg (set_msp c v) 18 = reg c 18) /\
  (reg (set_psp c v) 18 = num_val v - num_val v mod 4 /\ reg (set_psp c v) 13 = reg c 13 /\ reg (set_psp c v) 17 = reg c 17).
Proof.
  intros c v. unfold set_sp, set_msp, set_psp, write_register.
  repeat split; cbn [register_name_to_index]; (match goal with |- context [mock_write_register _ ?k _] => let k' := eval vm_compute in k in change k with k' end); rewrite mock_write_reg; reflexivity.
Qed.
(*@ex
Example C37_sp_write_ex : reg (set_sp cpu_new (NInt 7)) 17 = 4.
Proof. reflexivity. Qed.
@*)

(*@doc C37 refuted for the process stack: with CONTROL.SPSEL set, sp is still the
main stack pointer, so a write to psp is not visible through sp. @*)
Lemma C37_process_stack_refuted_proof : exists c, regs_ok c /\ Z.testbit (reg c (-4)) 1 = true /\
  get_sp (set_psp c (NInt 4096)) = Ok (bits 32 0) /\ get_psp (set_psp c (NInt 4096)) = Ok (bits 32 4096).
Proof.
  exists (write_register cpu_new (RName "control") (NInt 2)). split; [|repeat split].
  unfold write_register. change (register_name_to_index (RName "control")) with (Some (-4)).
  apply regs_ok_write; [|cbn [num_val]; lia]. intros k Hk.
  assert (I : In k (map (fun x => x - 4) (py_range 100))).
  { apply in_map_iff. exists (k + 4). split; [lia|]. unfold py_range. apply in_map_iff. exists (Z.to_nat (k + 4)).
    unfold core in Hk. split; [lia|apply in_seq; lia]. }
  revert k I Hk. apply (proj1 (Forall_forall (fun k => core k -> exists v, reg_get (c_regs cpu_new) (Some k) = Some v /\ 0 <= v < 2 ^ 32) _)).
  change (map (fun x => x - 4) (py_range 100)) with (ltac:(let x := eval vm_compute in (map (fun x => x - 4) (py_range 100)) in exact x)).
  repeat (apply Forall_cons; [intros Hc; unfold core in Hc; first [exfalso; lia | eexists; split; [reflexivity|lia]]|]). apply Forall_nil.
Qed.
(*@ex
Example C37_process_stack_ex : spsel = 0.
Proof. reflexivity. Qed.
@*)

(*@doc C38: reading a flag gives the xPSR bit. @*)
Lemma C38_get_proof : forall c f, regs_ok c -> apsr_get c f = Ok (bitv (Z.testbit (reg c 16) (flag_bit f))).
Proof. exact apsr_get_ok. Qed.
(*@ex
Example C38_get_ex : apsr_get (set_xpsr cpu_new (NInt 2147483648)) FN = Ok (bits 1 1) /\
  apsr_get (set_xpsr cpu_new (NInt 2147483648)) FZ = Ok (bits 1 0).
Proof. split; reflexivity. Qed.
@*)

(*@doc C38: setting a flag changes exactly that bit of xPSR, nothing else; the value
counts modulo 2. @*)
Lemma C38_set_proof : forall c f v b, regs_ok c -> (v = VInt b \/ exists x, v = VBits x /\ wf x /\ bv x = b) ->
  exists c', apsr_set c f v = Ok c' /\ regs_ok c' /\ c_mem c' = c_mem c /\
    (forall k, k <> 16 -> reg c' k = reg c k) /\
    (forall i, 0 <= i -> Z.testbit (reg c' 16) i = if i =? flag_bit f then Z.odd b else Z.testbit (reg c 16) i) /\
    forall g, apsr_get c' g = Ok (bitv (if Z.eqb (flag_bit g) (flag_bit f) then Z.odd b else Z.testbit (reg c 16) (flag_bit g))).
Proof.
  intros c f v b H Hv. pose proof (flag_bit_range f) as F.
  assert (E : bs_init v (Some 1) = Ok (bitv (Z.odd b))).
  { destruct Hv as [->|(x & -> & Hx & <-)]; [apply init1_int|]. rewrite init1_bits by exact Hx. rewrite Z.bit0_odd. reflexivity. }
  destruct (regs_ok_reg c 16 H ltac:(left; lia)) as [_ R].
  eexists. split; [apply (apsr_set_ok c f v _ H E)|].
  assert (H' : regs_ok (mock_write_register c (Some 16) (put_bit (reg c 16) (flag_bit f) (Z.odd b)))).
  { apply regs_ok_write; [exact H|]. apply put_bit_range; [lia|exact R]. }
  assert (B : forall i, 0 <= i -> Z.testbit (reg (mock_write_register c (Some 16) (put_bit (reg c 16) (flag_bit f) (Z.odd b))) 16) i =
     if i =? flag_bit f then Z.odd b else Z.testbit (reg c 16) i).
  { intros i Hi. rewrite mock_write_reg. change (written 16 16) with true. cbv iota. change (kept 16) with (fun v : Z => v). cbv beta.
    apply put_bit_testbit; lia. }
  split; [exact H'|]. split; [reflexivity|]. split; [|split; [exact B|]].
  - intros k Hk. rewrite mock_write_reg. unfold written. replace (k =? 16) with false by lia. reflexivity.
  - intros g. rewrite apsr_get_ok by exact H'. rewrite B by (pose proof (flag_bit_range g); lia). reflexivity.
Qed.
(*@ex
Example C38_set_ex : exists c', apsr_set cpu_new FC (VInt 1) = Ok c' /\ reg c' 16 = 553648128 /\
  apsr_get c' FC = Ok (bits 1 1) /\ apsr_get c' FV = Ok (bits 1 0).
Proof. eexists. split; [reflexivity|]. repeat split. Qed.
@*)

(*@doc C38: the flags are four different bits, where the architecture has them. @*)
Lemma C38_positions_proof : flag_bit FN = 31 /\ flag_bit FZ = 30 /\ flag_bit FC = 29 /\ flag_bit FV = 28 /\
  forall f g, flag_bit f = flag_bit g -> f = g.
Proof. repeat split. intros [] []; cbn; intros; congruence || discriminate. Qed.
(*@ex
Example C38_positions_ex : flag_bit FN <> flag_bit FZ.
Proof. discriminate. Qed.
@*)

(*@doc C39 refuted: reading cpu.s[k] raises KeyError for every k >= 0, so a value
written to cpu.s[k] cannot be read back through it. @*)
Lemma C39_read_refuted_proof : exists c k v c', 0 <= k <= 31 /\ s_set c k (NInt v) = Ok c' /\ s_get c' k <> Ok (bits 32 v).
Proof. exists cpu_new, 3, 5. eexists. split; [lia|]. split; [reflexivity|]. discriminate. Qed.
(*@ex
Example C39_read_refuted_ex : s_get cpu_new 0 = Err KeyError.
Proof. reflexivity. Qed.
@*)

(*@doc C39: exact behaviour of the two directions.  Writes reach register number
64+k; reads look at 128+k and raise KeyError whenever k >= 0. @*)
Lemma C39_exact_proof : forall c k v,
  s_set c k v = (if 31 <? k then Err KeyError else Ok (write_register c (RIndex (64 + k)) v)) /\
  s_get c k = (if -33 <? k then Err KeyError else read_register c (RIndex (128 + k))).
Proof.
  intros c k v. unfold s_set, s_get, ri_set, ri_get. split.
  - replace (95 <? 64 + k) with (31 <? k) by lia. reflexivity.
  - replace (64 + (64 + k)) with (128 + k) by lia. replace (95 <? 128 + k) with (-33 <? k) by lia. reflexivity.
Qed.
(*@ex
Example C39_exact_ex : s_get cpu_new 31 = Err KeyError /\ s_get cpu_new (-40) = Ok (bits 32 0) /\ s_set cpu_new 32 (NInt 1) = Err KeyError.
Proof. repeat split. Qed.
@*)

(*@doc C39, strongest true statement: what is written to cpu.s[k] is read back by
name and by number, and other registers keep their values. @*)
Lemma C39_write_proof : forall c k v, 0 <= k <= 31 -> 0 <= num_val v < 2 ^ 32 ->
  exists c', s_set c k v = Ok c' /\ read_register c' (RName ("s" ++ fmt_d k)) = Ok (bits 32 (num_val v)) /\
    read_register c' (RIndex (64 + k)) = Ok (bits 32 (num_val v)) /\
    s_get c' (k - 64) = Ok (bits 32 (num_val v)) /\
    c_mem c' = c_mem c /\ forall j, j <> 64 + k -> reg c' j = reg c j.
Proof.
  intros c k v Hk Hv. unfold s_set, ri_set. replace (95 <? 64 + k) with false by lia.
  eexists. split; [reflexivity|].
  assert (K : kept (64 + k) (num_val v) = num_val v).
  { unfold kept. replace (64 + k =? 13) with false by lia. replace (64 + k =? 17) with false by lia. replace (64 + k =? 18) with false by lia.
    replace (64 + k =? -1) with false by lia. replace (64 + k =? -3) with false by lia. replace (64 + k =? -2) with false by lia. reflexivity. }
  assert (R : forall r, register_name_to_index r = Some (64 + k) -> read_register (write_register c (RIndex (64 + k)) v) r = Ok (bits 32 (num_val v))).
  { intros r Hr. rewrite (C36_read_after_write_proof c _ r (64 + k)) by (try exact Hr; try exact Hv; reflexivity). rewrite K. reflexivity. }
  split; [apply R, C36_names_proof, Hk|]. split; [apply R; reflexivity|]. split; [|split; [reflexivity|]].
  - rewrite (proj2 (C39_exact_proof _ _ v)). replace (-33 <? k - 64) with false by lia. replace (128 + (k - 64)) with (64 + k) by lia.
    apply R. reflexivity.
  - intros j Hj. unfold write_register. cbn [register_name_to_index]. rewrite mock_write_reg. unfold written.
    replace (j =? 64 + k) with false by lia. replace (64 + k =? 13) with false by lia. replace (64 + k =? 17) with false by lia. reflexivity.
Qed.
(*@ex
Example C39_write_ex : exists c', s_set cpu_new 7 (NInt 1234) = Ok c' /\ read_register c' (RName "S7") = Ok (bits 32 1234) /\
  s_get c' (-57) = Ok (bits 32 1234).
Proof. eexists. split; [reflexivity|]. split; reflexivity. Qed.
@*)
