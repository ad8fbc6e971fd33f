(** * Effect of push, pop and multiple transfers *)
From Coq Require Import Lia ZifyBool.
From Verif Require Import BitstringModel SpecBits BitFacts BitOps BitMisc BitText BitThms HelpersModel SpecArm HelpFacts UtilFacts CpuModel SpecCpu
  CpuFacts CpuThms InsnModel ExecModel SpecExec ExecFacts ExecDataThms ExecArithThms ExecMiscThms ExecMemThms SpecIsa.
(*@imports
From Coq Require Import Lia ZifyBool.
From Verif Require Import BitstringModel SpecBits BitFacts BitOps BitMisc BitText BitThms HelpersModel SpecArm HelpFacts UtilFacts CpuModel SpecCpu
  CpuFacts CpuThms InsnModel ExecModel SpecExec ExecFacts ExecDataThms ExecArithThms ExecMiscThms ExecMemThms ExecMultiThms SpecIsa.
Local Open Scope bool_scope.
Local Open Scope Z_scope.
@*)
Local Open Scope bool_scope.
Local Open Scope Z_scope.

Lemma list_bit : forall v k, half v -> gpr k -> bs_getitem (bits 16 v) (KInt k) = Ok (bitv (Z.testbit v k)).
Proof.
  intros v k V K. destruct (C04_index_proof (bits 16 v) k) as [E _]; [apply wf_bits; lia|]. rewrite E by apply K. unfold bit.
  rewrite bits_bv, Z.mod_small by exact V. destruct (Z.testbit v k); reflexivity.
Qed.
Lemma listed_run : forall B (f : bool -> comp B) py c i v k, half v -> gpr k -> a_registers (i_attrs i) = Some (bits 16 v) ->
  mbind (listed py k) f (mkst c i) = f (is_listed py v k) (mkst c i).
Proof.
  intros B f py c i v k V K A. unfold listed. rewrite bind_assoc, (bind_attr _ _ _ _ _ _ _ A), bind_assoc.
  rewrite (bind_lift _ _ _ _ _ _ (list_bit v k V K)), bind_ret. destruct py, (Z.testbit v k) eqn:E; cbn; rewrite ?E; reflexivity.
Qed.
Lemma count_ones : forall n v, ones_below n v = Z.of_nat (List.length (filter (Z.testbit v) (map Z.of_nat (seq 0 n)))).
Proof.
  intros n v. induction n as [|n IH]; [reflexivity|]. rewrite seq_S, map_app, filter_app, app_length. cbn [plus map filter ones_below].
  destruct (Z.testbit v (Z.of_nat n)); cbn [List.length]; lia.
Qed.
Lemma list_bytes_run : forall B (f : Z -> comp B) c i v, half v -> a_registers (i_attrs i) = Some (bits 16 v) ->
  mbind list_bytes f (mkst c i) = f (4 * reg_count v) (mkst c i).
Proof.
  intros B f c i v V A. unfold list_bytes. rewrite bind_assoc, (bind_attr _ _ _ _ _ _ _ A), bind_assoc.
  assert (E : bs_bit_count (bits 16 v) = Ok (reg_count v)).
  { rewrite bit_count_ok by (apply wf_bits; lia). rewrite bits_bv, Z.mod_small, bits_bw by exact V. f_equal. apply count_ones. }
  rewrite (bind_lift _ _ _ _ _ _ E), bind_ret. reflexivity.
Qed.

Lemma word_writes_snoc_cons : forall f a k l, word_writes f a (k :: l) = mkwr (wrap a) (f k) 32 :: word_writes f (a + 4) l.
Proof. reflexivity. Qed.
Lemma word_writes_ext : forall f g l a, (forall k, core k -> f k = g k) -> Forall gpr l -> word_writes f a l = word_writes g a l.
Proof.
  intros f g l. induction l as [|k l IH]; intros a E F; [reflexivity|]. inversion F as [|? ? Gk F']; subst.
  cbn [word_writes]. rewrite (E k (core_gpr k Gk)), (IH (a + 4) E F'). reflexivity.
Qed.
Lemma word_writes_wrap : forall f l a, word_writes f (wrap a) l = word_writes f a l.
Proof.
  intros f l. induction l as [|k l IH]; intros a; [reflexivity|]. cbn [word_writes].
  assert (W : forall x, wrap (wrap a + x) = wrap (a + x)) by (intros x; unfold wrap; apply Z.add_mod_idemp_l; lia).
  replace (wrap (wrap a)) with (wrap a) by (symmetry; apply wrap_small, word_wrap).
  rewrite <- (IH (wrap a + 4)), W, IH. reflexivity.
Qed.
Lemma words_cons : forall A (x : A) l, words (x :: l) = 4 + words l.
Proof. intros. unfold words. cbn [List.length]. lia. Qed.
Lemma range_gpr : Forall gpr (py_range 15).
Proof. unfold py_range. change (Z.to_nat 15) with 15%nat. cbn [seq map]. repeat apply Forall_cons; try apply Forall_nil; unfold gpr; lia. Qed.
Lemma filter_gpr : forall p l, Forall gpr l -> Forall gpr (filter p l).
Proof. intros p l F. apply Forall_forall. intros x X. apply filter_In in X as [X _]. rewrite Forall_forall in F. exact (F x X). Qed.
Lemma transferred_gpr : forall py v, Forall gpr (transferred py v).
Proof. intros. apply filter_gpr, range_gpr. Qed.

Lemma add_any : forall a n, bs_add (bits 32 a) (VInt n) = Ok (bits 32 (a + n)).
Proof.
  intros a n. rewrite <- (bits_wrap a), (add_int (wrap a) n (word_wrap a)), <- (bits_wrap (wrap a + n)), <- (bits_wrap (a + n)).
  do 2 f_equal. unfold wrap. apply Z.add_mod_idemp_l. lia.
Qed.
Lemma add4 : forall a, bs_add (bits 32 a) (VInt 4) = Ok (bits 32 (a + 4)).
Proof. intros. apply add_any. Qed.

(** ** The store loop *)
Lemma store_loop_run : forall py v l c i a c0 ws, regs_ok c -> mem_ok c -> half v -> a_registers (i_attrs i) = Some (bits 16 v) -> Forall gpr l ->
  wrote c0 c ws ->
  let fl := filter (is_listed py v) l in
  exists c', store_loop py l (bits 32 a) (mkst c i) = (mkst c' i, Ok (bits 32 (a + words fl))) /\
    c_regs c' = c_regs c /\ wrote c0 c' (ws ++ word_writes (reg c) a fl).
Proof.
  intros py v l. induction l as [|k l IH]; intros c i a c0 ws H HM V A F Ws fl; unfold fl.
  - exists c. cbn. rewrite app_nil_r, Z.add_0_r. split; [reflexivity|]. split; [reflexivity|assumption].
  - inversion F as [|? ? Gk F']; subst. cbn [store_loop filter]. rewrite (listed_run _ _ _ _ _ v k V Gk A).
    destruct (is_listed py v k); [|apply IH; assumption].
    rewrite bind_rget by assumption.
    destruct (write_run c (wrap a) (reg c k) 32 HM ltac:(right; right; reflexivity) (word_wrap a) ltac:(discriminate)) as (c1 & E & R & HM1 & _ & Ws1).
    rewrite (bind_setc _ _ c1) by (unfold write32; rewrite <- (bits_wrap a); apply E; apply bv_word, word_gpr; assumption).
    rewrite (bind_lift _ _ _ _ _ _ (add4 a)).
    destruct (IH c1 i (a + 4) c0 _ (ok_regs _ _ R H) HM1 V A F' (Ws1 c0 ws Ws)) as (c' & E' & R' & W').
    exists c'. rewrite E'. split; [rewrite words_cons; do 3 f_equal; lia|]. split; [congruence|].
    cbn [word_writes]. rewrite <- app_assoc in W'. cbn [app] in W'.
    rewrite (word_writes_ext (reg c1) (reg c)) in W'; [assumption|intros; apply reg_regs; assumption|apply filter_gpr; assumption].
Qed.

(** ** The load loop *)
Lemma loaded_ext : forall l vs f g, (forall k, core k -> f k = g k) -> forall k, core k -> loaded f l vs k = loaded g l vs k.
Proof.
  induction l as [|x l IH]; intros vs f g E k K; [apply E; assumption|]. destruct vs as [|v vs]; [apply E; assumption|].
  cbn [loaded]. apply IH; [|assumption]. intros j J. apply set_ext; assumption.
Qed.
Lemma reads_words_mem : forall c c' vs a, c_mem c' = c_mem c -> reads_words c a vs -> reads_words c' a vs.
Proof.
  intros c c' vs. induction vs as [|v vs IH]; intros a M R; [exact Logic.I|]. destruct R as [R R']. split; [apply (reads_mem c); assumption|apply IH; assumption].
Qed.
Lemma cut_mem : forall c c' a size, c_mem c' = c_mem c -> cut_off c a size -> cut_off c' a size.
Proof.
  intros c c' a size M (i & m & L & T). exists i, m. split; [unfold located in *; rewrite M; assumption|]. rewrite <- T. clear - M.
  generalize (a - m_start m) as o. generalize (Z.to_nat (size / 8)) as n.
  induction n as [|n IH]; intros o; [reflexivity|]. cbn [take_cells]. rewrite IH. unfold cell. rewrite M. reflexivity.
Qed.
Lemma load_loop_run : forall py v l c i a vs, regs_ok c -> mem_ok c -> half v -> a_registers (i_attrs i) = Some (bits 16 v) -> Forall gpr l ->
  let fl := filter (is_listed py v) l in
  reads_words c a vs ->
  (List.length vs = List.length fl ->
    exists c', load_loop py l (bits 32 a) (mkst c i) = (mkst c' i, Ok (bits 32 (a + words fl))) /\
    regs_ok c' /\ c_mem c' = c_mem c /\ forall k, core k -> reg c' k = loaded (reg c) fl vs k) /\
  ((List.length vs < List.length fl)%nat -> cut_off c (wrap (a + words vs)) 32 ->
    exists c', load_loop py l (bits 32 a) (mkst c i) = (mkst c' i, Err IndexError) /\
    c_mem c' = c_mem c /\ forall k, core k -> reg c' k = loaded (reg c) fl vs k).
Proof.
  intros py v l. induction l as [|k l IH]; intros c i a vs H HM V A F fl R; unfold fl.
  - split; [|cbn; lia]. cbn. rewrite Z.add_0_r. intros L. exists c. repeat (split; [first [reflexivity|assumption]|]). reflexivity.
  - inversion F as [|? ? Gk F']; subst. cbn [load_loop filter]. rewrite (listed_run _ _ _ _ _ v k V Gk A).
    destruct (is_listed py v k); [|apply IH; assumption].
    destruct vs as [|u vs].
    + split; [cbn; discriminate|]. intros _ X. unfold words in X. cbn in X. rewrite Z.add_0_r in X.
      exists c. split; [|split; reflexivity]. unfold read32. rewrite <- (bits_wrap a).
      rewrite (bind_getc_err _ _ _ _ _ _ _ (cut_fails c (wrap a) 32 HM ltac:(right; right; reflexivity) (word_wrap a) X)). reflexivity.
    + destruct R as [R R']. cbn [List.length loaded].
      destruct (reads_ok c (wrap a) 32 u HM ltac:(right; right; reflexivity) (word_wrap a) R) as [E U].
      rewrite bits_wrap in E. rewrite (bind_getc _ _ _ _ _ _ _ E). rewrite bind_rset by assumption. rewrite bv_word by exact U.
      rewrite (bind_lift _ _ _ _ _ _ (add4 a)).
      assert (M1 : c_mem (W c k u) = c_mem c) by apply mem_W.
      destruct (IH (W c k u) i (a + 4) vs (ok_W _ _ _ H U) (mem_ok_mem _ _ M1 HM) V A F' (reads_words_mem _ _ _ _ M1 R')) as [G1 G2].
      split.
      * intros L. destruct G1 as (c' & E' & H' & M' & G); [lia|]. exists c'. rewrite E'.
        split; [rewrite words_cons; do 3 f_equal; lia|]. split; [assumption|]. split; [congruence|].
        intros j J. rewrite (G j J). apply loaded_ext; [|assumption]. intros; apply reg_W.
      * intros L X. destruct G2 as (c' & E' & M' & G); [lia| |].
        { apply (cut_mem c); [assumption|]. rewrite words_cons in X. replace (a + 4 + words vs) with (a + (4 + words vs)) by lia. assumption. }
        exists c'. split; [assumption|]. split; [congruence|].
        intros j J. rewrite (G j J). apply loaded_ext; [|assumption]. intros; apply reg_W.
Qed.

(** ** The instructions *)
(*@doc C49, push: sp goes down by 4 per listed register, and the registers are stored upwards from
    there, lowest first.  On Python 3 all of r0-r14 are stored. @*)
Lemma C49_push_proof : forall py c i v, regs_ok c -> mem_ok c -> half v -> is_insn i Push [Regs v] ->
  let a := wrap (reg c 13 - 4 * reg_count v) in let f := set (reg c) 13 a in
  stores py c i (advance f (i_size i)) (word_writes f a (transferred py v)).
Proof.
  intros py c i v H HM V [K A] a f. unfold stores, execute. rewrite K. cbn [eval]. unfold eval_Push.
  assert (Ar : a_registers (i_attrs i) = Some (bits 16 v)) by sattr.
  rewrite (bind_getc _ _ _ _ _ _ _ (get_sp_run c H)). rewrite (list_bytes_run _ _ _ _ v V Ar).
  rewrite (bind_lift _ _ _ _ _ _ (sub_int (reg c 13) _ (word_gpr c 13 H ltac:(unfold gpr; lia)))).
  rewrite (bind_setc _ _ (W c 13 a)) by (rewrite set_sp_W; cbn [num_val]; unfold bs_unsigned; rewrite bv_wrap; reflexivity).
  rewrite <- bits_wrap. fold a. set (c1 := W c 13 a).
  assert (H1 : regs_ok c1) by (apply ok_W; [assumption|apply word_wrap]).
  assert (M1 : c_mem c1 = c_mem c) by apply mem_W.
  destruct (store_loop_run py v (py_range 15) c1 i a c [] H1 (mem_ok_mem _ _ M1 HM) V Ar range_gpr (wrote_nil _ _ M1)) as (c2 & E2 & R2 & W2).
  rewrite (bind_ok _ _ _ _ _ _ _ E2). cbn [app] in W2.
  destruct (advance_only c c2 i _ (ok_regs _ _ R2 H1) W2) as (c' & E' & W' & G). exists c'. split; [exact E'|]. split.
  - unfold f. fold (transferred py v) in W'. rewrite (word_writes_ext _ (reg c1)); [assumption| |apply transferred_gpr].
    intros. symmetry. apply reg_W.
  - intros k J. rewrite (G k J). apply advance_ext; [|assumption]. intros j _. rewrite (reg_regs _ _ R2). apply reg_W.
Qed.
(*@ex
Example C49_push_ex :
  let i := an_insn Push [Regs 0x4011] false in
  cpu_ok ex_state /\
  reg_after Py2 ex_state i 13 = 36 /\
  mem_after Py2 ex_state i 36 = Some 7 /\
  mem_after Py2 ex_state i 40 = Some 0x78 /\
  mem_after Py2 ex_state i 44 = Some 33 /\
  mem_after Py2 ex_state i 48 = Some 0 /\
  mem_after Py3 ex_state i 48 = Some 16.
Proof. split; [exact ex_state_ok|]. vm_compute. repeat split; reflexivity. Qed.
@*)
(*@doc C50, stm: lowest register at the lowest address, write-back of the final address. @*)
Lemma C50_store_multiple_proof : forall py c i n v wb, regs_ok c -> mem_ok c -> gpr n -> half v -> is_insn i StoreMultiple [N n; Regs v; Wb wb] ->
  let l := transferred py v in let a := reg c n in
  stores py c i (advance (if wb then set (reg c) n (wrap (a + words l)) else reg c) (i_size i)) (word_writes (reg c) a l).
Proof.
  intros py c i n v wb H HM Gn V [K A] l a. unfold stores, execute. rewrite K. cbn [eval]. unfold eval_StoreMultiple.
  assert (Ar : a_registers (i_attrs i) = Some (bits 16 v)) by sattr.
  at_attr. at_get.
  destruct (store_loop_run py v (py_range 15) c i a c [] H HM V Ar range_gpr (wrote_nil _ _ eq_refl)) as (c2 & E2 & R2 & W2).
  rewrite (bind_ok _ _ _ _ _ _ _ E2). cbn [app] in W2. fold (transferred py v) in *. fold l in W2 |- *. at_attr.
  pose proof (ok_regs _ _ R2 H) as H2. set (c3 := if wb then W c2 n (wrap (a + words l)) else c2).
  assert (S1 : forall B (f : unit -> comp B), mbind (if wb then do n <- attr a_n; rset n (bits 32 (a + words l)) else ret tt) f (mkst c2 i) = f tt (mkst c3 i)).
  { intros B f. unfold c3. destruct wb; [|reflexivity]. rewrite bind_assoc. at_attr. rewrite bind_rset by assumption. rewrite bv_wrap. reflexivity. }
  rewrite S1.
  assert (H3 : regs_ok c3) by (unfold c3; destruct wb; [apply ok_W; [assumption|apply word_wrap]|assumption]).
  assert (W3 : wrote c c3 (word_writes (reg c) a l)) by (apply (wrote_mem _ c2); [unfold c3; destruct wb; rewrite ?mem_W; reflexivity|assumption]).
  destruct (advance_only c c3 i _ H3 W3) as (c' & E' & W' & G). exists c'. split; [exact E'|]. split; [exact W'|].
  intros k J. rewrite (G k J). apply advance_ext; [|assumption]. intros j Cj. unfold c3. destruct wb; [|apply reg_regs; assumption].
  rewrite reg_W. apply set_ext; [|assumption]. intros; apply reg_regs; assumption.
Qed.
(*@ex
Example C50_store_multiple_ex :
  let i := an_insn StoreMultiple [N 3; Regs 0x11; Wb true] false in
  cpu_ok ex_state /\
  mem_after Py2 ex_state i 16 = Some 7 /\
  mem_after Py2 ex_state i 20 = Some 0x78 /\
  reg_after Py2 ex_state i 3 = 24.
Proof. split; [exact ex_state_ok|]. vm_compute. repeat split; reflexivity. Qed.
@*)

Lemma load_pc_run : forall py c i v a, regs_ok c -> mem_ok c -> half v -> a_registers (i_attrs i) = Some (bits 16 v) ->
  (forall f', loaded_pc py c v a (reg c) (i_size i) f' ->
    exists c', load_pc py (bits 32 a) (mkst c i) = (mkst c' i, Ok tt) /\ regs_ok c' /\ c_mem c' = c_mem c /\ forall k, core k -> reg c' k = f' k) /\
  (is_listed py v 15 = true -> cut_off c (wrap a) 32 -> load_pc py (bits 32 a) (mkst c i) = (mkst c i, Err IndexError)).
Proof.
  intros py c i v a H HM V A. unfold load_pc, loaded_pc. rewrite (listed_run _ _ _ _ _ v 15 V ltac:(unfold gpr; lia) A). split.
  - intros f'. destruct (is_listed py v 15).
    + intros (u & R & ->). destruct (reads_ok c (wrap a) 32 u HM ltac:(right; right; reflexivity) (word_wrap a) R) as [E U].
      rewrite bits_wrap in E. rewrite (bind_getc _ _ _ _ _ _ _ E). exists (W c 15 u).
      split; [unfold setc; cbn [s_cpu]; rewrite set_pc_W; cbn [num_val]; unfold bs_unsigned; rewrite bv_word by exact U; reflexivity|].
      split; [apply ok_W; assumption|]. split; [apply mem_W|]. intros; apply reg_W.
    + intros ->. eexists. split; [apply pc_next_run; assumption|]. split; [apply ok_W; [assumption|apply word_wrap]|]. split; [apply mem_W|].
      intros; apply reg_W.
  - intros -> X. unfold read32. rewrite <- (bits_wrap a).
    rewrite (bind_getc_err _ _ _ _ _ _ _ (cut_fails c (wrap a) 32 HM ltac:(right; right; reflexivity) (word_wrap a) X)). reflexivity.
Qed.
Lemma loaded_pc_shift : forall py c c' v a f g size f', c_mem c' = c_mem c -> (forall k, core k -> g k = f k) -> loaded_pc py c v a f size f' ->
  exists g', loaded_pc py c' v a g size g' /\ forall k, core k -> g' k = f' k.
Proof.
  intros py c c' v a f g size f' M E. unfold loaded_pc. destruct (is_listed py v 15).
  - intros (u & R & ->). eexists. split; [exists u; split; [apply (reads_mem c); assumption|reflexivity]|]. intros k J. apply set_ext; assumption.
  - intros ->. eexists. split; [reflexivity|]. intros k J. apply advance_ext; assumption.
Qed.

(** The common part of the multiple loads: from the loop to the pc. *)
Definition load_tail (py : pyver) (address : bs) (k : comp unit) : comp unit :=
  do address <- load_loop py (py_range 15) address; do _ <- load_pc py address; k.
Lemma load_tail_run : forall py c i v a f k g, regs_ok c -> mem_ok c -> half v -> a_registers (i_attrs i) = Some (bits 16 v) ->
  (forall j, core j -> reg c j = f j) ->
  (forall c' f', regs_ok c' -> (forall j, core j -> reg c' j = f' j) ->
     exists c2, k (mkst c' i) = (mkst c2 i, Ok tt) /\ c_mem c2 = c_mem c' /\ forall j, core j -> reg c2 j = g f' j) ->
  let l := transferred py v in
  forall vs, reads_words c a vs ->
  (List.length vs = List.length l ->
     (forall f', loaded_pc py c v (a + words l) (loaded f l vs) (i_size i) f' ->
        exists c', load_tail py (bits 32 a) k (mkst c i) = (mkst c' i, Ok tt) /\ c_mem c' = c_mem c /\ forall j, core j -> reg c' j = g f' j) /\
     (is_listed py v 15 = true -> cut_off c (wrap (a + words l)) 32 ->
        exists c', load_tail py (bits 32 a) k (mkst c i) = (mkst c' i, Err IndexError) /\ c_mem c' = c_mem c /\ forall j, core j -> reg c' j = loaded f l vs j)) /\
  ((List.length vs < List.length l)%nat -> cut_off c (wrap (a + words vs)) 32 ->
     exists c', load_tail py (bits 32 a) k (mkst c i) = (mkst c' i, Err IndexError) /\ c_mem c' = c_mem c /\ forall j, core j -> reg c' j = loaded f l vs j).
Proof.
  intros py c i v a f k g H HM V A F Kk l vs R. unfold load_tail.
  destruct (load_loop_run py v (py_range 15) c i a vs H HM V A range_gpr R) as [G1 G2]. fold (transferred py v) in G1, G2. fold l in G1, G2.
  assert (X : forall j, core j -> loaded (reg c) l vs j = loaded f l vs j) by (intros; apply loaded_ext; assumption).
  split.
  - intros L. destruct (G1 L) as (c1 & E1 & H1 & M1 & R1). rewrite (bind_ok _ _ _ _ _ _ _ E1).
    destruct (load_pc_run py c1 i v (a + words l) H1 (mem_ok_mem _ _ M1 HM) V A) as [P1 P2]. split.
    + intros f' Lp. destruct (loaded_pc_shift py c c1 v (a + words l) (loaded f l vs) (reg c1) (i_size i) f' M1) as (g' & Lg & Eg).
      { intros j J. rewrite (R1 j J). apply X. assumption. }
      { assumption. }
      destruct (P1 g' Lg) as (c2 & E2 & H2 & M2 & R2). rewrite (bind_ok _ _ _ _ _ _ _ E2).
      destruct (Kk c2 f' H2) as (c3 & E3 & M3 & R3).
      { intros j J. rewrite (R2 j J). apply Eg. assumption. }
      exists c3. split; [assumption|]. split; [congruence|assumption].
    + intros Li Cut. exists c1. rewrite (bind_err _ _ _ _ _ _ _ (P2 Li (cut_mem _ _ _ _ M1 Cut))). split; [reflexivity|]. split; [assumption|].
      intros j J. rewrite (R1 j J). apply X. assumption.
  - intros L Cut. destruct (G2 L Cut) as (c1 & E1 & M1 & R1). exists c1. rewrite (bind_err _ _ _ _ _ _ _ E1). split; [reflexivity|].
    split; [assumption|]. intros j J. rewrite (R1 j J). apply X. assumption.
Qed.

Lemma bind_ret_r : forall (m : comp unit) s, mbind m (fun _ => ret tt) s = m s.
Proof. intros m s. unfold mbind, ret. destruct (m s) as [s' [[]|e]]; reflexivity. Qed.
Lemma load_tail_ret : forall py a s, load_tail py a (ret tt) s = mbind (load_loop py (py_range 15) a) (load_pc py) s.
Proof. intros py a s. unfold load_tail. unfold mbind at 1 3. destruct (load_loop _ _ _ _) as [s' [x|e]]; [apply bind_ret_r|reflexivity]. Qed.
(*@doc C49, pop, with all outcomes. @*)
Lemma C49_pop_proof : forall py c i v, regs_ok c -> mem_ok c -> half v -> is_insn i Pop [Regs v] ->
  loads_list py c i v (reg c 13) (set (reg c) 13 (wrap (reg c 13 + 4 * reg_count v))) (fun f => f).
Proof.
  intros py c i v H HM V [K A]. set (a := reg c 13). set (sp' := wrap (a + 4 * reg_count v)).
  assert (Ar : a_registers (i_attrs i) = Some (bits 16 v)) by sattr.
  assert (Wa : word a) by (apply word_gpr; [assumption|unfold gpr; lia]).
  assert (E0 : execute py c i = load_tail py (bits 32 a) (ret tt) (mkst (W c 13 sp') i)).
  { unfold execute. rewrite K. cbn [eval]. unfold eval_Pop.
    rewrite !(bind_getc _ _ _ _ _ _ _ (get_sp_run c H)). rewrite (list_bytes_run _ _ _ _ v V Ar).
    fold a. rewrite (bind_lift _ _ _ _ _ _ (add_any a _)).
    rewrite (bind_setc _ _ (W c 13 sp')) by (rewrite set_sp_W; cbn [num_val]; unfold bs_unsigned; rewrite bv_wrap; reflexivity).
    symmetry. apply load_tail_ret. }
  assert (M1 : c_mem (W c 13 sp') = c_mem c) by apply mem_W.
  unfold loads_list, runs, fails. intros vs R. rewrite E0.
  pose proof (load_tail_run py (W c 13 sp') i v a (set (reg c) 13 sp') (ret tt) (fun f => f)
    (ok_W _ _ _ H (word_wrap _)) (mem_ok_mem _ _ M1 HM) V Ar (fun j _ => reg_W c 13 sp' j)) as T. cbv zeta in T.
  rewrite M1 in T. specialize (T (fun c' f' _ Ef => ex_intro _ c' (conj eq_refl (conj eq_refl Ef))) vs (reads_words_mem _ _ _ _ M1 R)).
  destruct T as [T1 T2]. split.
  - intros L. destruct (T1 L) as [T3 T4]. split.
    + intros f' Lp. apply T3. destruct (is_listed py v 15) eqn:Li; unfold loaded_pc in *; rewrite Li in *; [|exact Lp].
      destruct Lp as (u & Ru & Eu). exists u. split; [apply (reads_mem c); assumption|assumption].
    + intros Li Cut. apply (T4 Li). apply (cut_mem c); assumption.
  - intros L Cut. apply (T2 L). apply (cut_mem c); assumption.
Qed.
(*@ex
Example C49_pop_ex :
  let i := an_insn Pop [Regs 0x8003] false in
  cpu_ok ex_state /\
  reg_after Py2 ex_state i 13 = 60 /\
  reg_after Py2 ex_state i 0 = 0 /\
  reg_after Py2 ex_state i 15 = 0.
Proof. split; [exact ex_state_ok|]. vm_compute. repeat split; reflexivity. Qed.
@*)
(*@doc C50, ldm: lowest register first; write-back unless the base is in the list. @*)
Lemma C50_load_multiple_proof : forall py c i n v wb, regs_ok c -> mem_ok c -> gpr n -> half v -> is_insn i LoadMultiple [N n; Regs v; Wb wb] ->
  loads_list py c i v (reg c n) (reg c) (rebased v n wb).
Proof.
  intros py c i n v wb H HM Gn V [K A]. set (a := reg c n).
  assert (Ar : a_registers (i_attrs i) = Some (bits 16 v)) by sattr.
  assert (Wa : word a) by (apply word_gpr; assumption).
  set (k := do wback <- attr a_wback;
    do w <- (if wback then
             do regs <- attr a_registers; do n <- attr a_n; do b <- lift (bs_getitem regs (KInt n)); lift (eq_text b "0")
           else ret false);
    if w then do n <- attr a_n; do v <- rget n; do k <- list_bytes; do v' <- lift (bs_add v (VInt k)); rset n v' else ret tt).
  assert (E0 : execute py c i = load_tail py (bits 32 a) k (mkst c i)).
  { unfold execute. rewrite K. cbn [eval]. unfold eval_LoadMultiple. at_attr. at_get. reflexivity. }
  unfold loads_list, runs, fails. intros vs R. rewrite E0. refine (load_tail_run py c i v a (reg c) k (rebased v n wb) H HM V Ar (fun _ _ => eq_refl) _ vs R).
  intros c' f' H' Ef. unfold k, rebased. at_attr.
  set (w := wb && negb (Z.testbit v n)).
  assert (S1 : forall B (f : bool -> comp B), mbind (if wb then
             do regs <- attr a_registers; do n <- attr a_n; do b <- lift (bs_getitem regs (KInt n)); lift (eq_text b "0")
           else ret false) f (mkst c' i) = f w (mkst c' i)).
  { intros B f. unfold w. destruct wb; [|reflexivity]. rewrite bind_assoc. at_attr. rewrite bind_assoc. at_attr. rewrite bind_assoc.
    rewrite (bind_lift _ _ _ _ _ _ (list_bit v n V Gn)). apply bind_lift. destruct (Z.testbit v n); reflexivity. }
  rewrite S1. destruct w; [|exists c'; split; [reflexivity|]; split; [reflexivity|assumption]].
  at_attr. at_get. rewrite (list_bytes_run _ _ _ _ v V Ar). rewrite (bind_lift _ _ _ _ _ _ (add_any _ _)).
  rewrite rset_run by assumption. rewrite bv_wrap. eexists. split; [reflexivity|]. split; [apply mem_W|].
  intros j J. rewrite reg_W. rewrite (Ef n (core_gpr n Gn)). apply set_ext; assumption.
Qed.
(*@ex
Example C50_load_multiple_ex :
  let i := an_insn LoadMultiple [N 3; Regs 0x3; Wb true] false in
  cpu_ok ex_state /\
  reg_after Py2 ex_state i 0 = 0x80ff7f01 /\
  reg_after Py2 ex_state i 1 = 0 /\
  reg_after Py2 ex_state i 3 = 24.
Proof. split; [exact ex_state_ok|]. vm_compute. repeat split; reflexivity. Qed.
@*)

(** ** Push then pop *)
Lemma last_byte_none : forall c i o ws b, last_byte c i o ws b -> b = None -> cell c i o = None.
Proof. intros c i o ws b L. induction L as [|ws w v W|ws w b W L IH]; intros E; [assumption|discriminate|apply IH; assumption]. Qed.
Lemma cell_byte : forall c i o x, mem_ok c -> cell c i o = Some x -> is_byte x.
Proof.
  intros c i o x H E. unfold cell in E. destruct (nth_error (c_mem c) i) as [m|] eqn:M; [|discriminate]. destruct (o <? 0); [discriminate|].
  unfold mem_ok in H. rewrite Forall_forall in H. destruct (H m (nth_error_In _ _ M)) as [F _]. rewrite Forall_forall in F.
  apply F. apply (nth_error_In _ _ E).
Qed.
Lemma last_byte_byte : forall c i o ws b, mem_ok c -> last_byte c i o ws b -> forall x, b = Some x -> is_byte x.
Proof.
  intros c i o ws b H L. induction L as [|ws w v W|ws w b W L IH]; intros x E.
  - apply (cell_byte c i o); assumption.
  - injection E as <-. destruct W as (m & _ & _ & ->). apply Z.mod_pos_bound. lia.
  - apply IH. assumption.
Qed.
Lemma wrote_ok : forall c c' ws, mem_ok c -> wrote c c' ws -> mem_ok c'.
Proof.
  intros c c' ws H [Ly Ce]. apply Forall_forall. intros m' I'. apply In_nth_error in I' as (i & E').
  assert (Ei : option_map (fun m => (m_start m, m_end m)) (nth_error (c_mem c) i) = Some (m_start m', m_end m')).
  { rewrite <- nth_error_map. change (map (fun m => (m_start m, m_end m)) (c_mem c)) with (layout c). rewrite <- Ly. unfold layout.
    rewrite nth_error_map, E'. reflexivity. }
  destruct (nth_error (c_mem c) i) as [m|] eqn:E; [|discriminate]. cbn [option_map] in Ei. injection Ei as Es Ee.
  pose proof H as H0. unfold mem_ok in H0. rewrite Forall_forall in H0. destruct (H0 m (nth_error_In _ _ E)) as [_ Lm]. split.
  - apply Forall_forall. intros x X. apply In_nth_error in X as (q & Q). apply (last_byte_byte c i (Z.of_nat q) ws (Some x) H); [|reflexivity].
    apply Ce. unfold cell. rewrite E'. replace (Z.of_nat q <? 0) with false by lia. rewrite Nat2Z.id. assumption.
  - destruct (Z_le_gt_dec (m_end m' - m_start m' + 1) (Z.of_nat (List.length (m_data m')))) as [G|G]; [assumption|]. exfalso.
    assert (N : cell c' i (Z.of_nat (List.length (m_data m'))) = None).
    { unfold cell. rewrite E'. replace (_ <? 0) with false by lia. rewrite Nat2Z.id. apply nth_error_None. lia. }
    apply Ce in N. apply last_byte_none in N; [|reflexivity]. unfold cell in N. rewrite E in N. replace (_ <? 0) with false in N by lia.
    rewrite Nat2Z.id in N. apply nth_error_None in N. lia.
Qed.
Lemma word_writes_app : forall f l1 l2 a, word_writes f a (l1 ++ l2) = word_writes f a l1 ++ word_writes f (a + words l1) l2.
Proof.
  intros f l1. induction l1 as [|k l1 IH]; intros l2 a; [cbn; rewrite Z.add_0_r; reflexivity|].
  cbn [app word_writes]. rewrite IH, words_cons, Z.add_assoc. reflexivity.
Qed.
Lemma stored_bytes : forall c f j m l a, 0 <= a -> a + words l <= 2 ^ 32 -> (forall o, 0 <= o < words l -> located c (a + o) j m) ->
  forall q k b, nth_error l q = Some k -> 0 <= b < 4 ->
  last_byte c j (a - m_start m + 4 * Z.of_nat q + b) (word_writes f a l) (Some ((f k / 256 ^ b) mod 256)).
Proof.
  intros c f j m l a A0. induction l as [|x l IH] using rev_ind; intros A1 L q k b Q B; [destruct q; discriminate|].
  rewrite word_writes_app. cbn [word_writes].
  assert (Wl : words (l ++ [x]) = words l + 4) by (unfold words; rewrite app_length; cbn [List.length]; lia).
  assert (P : 0 <= words l) by (unfold words; lia).
  assert (Wr : wrap (a + words l) = a + words l) by (apply wrap_small; split; [lia|]; rewrite Wl in A1; change (2 ^ 32) with 4294967296 in *; lia).
  rewrite Wr. assert (Lx : located c (a + words l) j m) by (apply L; lia).
  destruct (Nat.eq_dec q (List.length l)) as [-> |Nq].
  - rewrite nth_error_app2, Nat.sub_diag in Q by lia. injection Q as <-. apply last_hit. exists m. cbn [w_addr w_size w_val].
    split; [assumption|]. cbv zeta. unfold words. change (32 / 8) with 4. split; [lia|]. do 3 f_equal. lia.
  - assert (Ql : (q < List.length l)%nat).
    { assert (q < List.length (l ++ [x]))%nat by (apply nth_error_Some; congruence). rewrite app_length in *. cbn [List.length] in *. lia. }
    rewrite nth_error_app1 in Q by assumption. apply last_miss; [|apply IH; try assumption; [change (2 ^ 32) with 4294967296 in *; lia|intros; apply L; lia]].
    intros u (m' & L' & B' & _). cbn [w_addr w_size] in *. cbv zeta in B'. destruct (located_fun _ _ _ _ _ _ Lx L') as [_ <-].
    unfold words in B'. lia.
Qed.
Lemma four_bytes : forall v, word v ->
  le_number [(v / 256 ^ 0) mod 256; (v / 256 ^ 1) mod 256; (v / 256 ^ 2) mod 256; (v / 256 ^ 3) mod 256] = v.
Proof.
  intros v V. unfold word in V. cbn [le_number]. change (256 ^ 0) with 1. change (256 ^ 1) with 256. change (256 ^ 2) with 65536. change (256 ^ 3) with 16777216.
  change (2 ^ 32) with 4294967296 in V. rewrite Z.div_1_r.
  assert (E1 : v / 65536 = v / 256 / 256) by (rewrite Z.div_div by lia; reflexivity).
  assert (E2 : v / 16777216 = v / 256 / 256 / 256) by (rewrite !Z.div_div by lia; reflexivity).
  rewrite E1, E2. pose proof (Z.div_mod v 256 ltac:(lia)). pose proof (Z.div_mod (v / 256) 256 ltac:(lia)).
  pose proof (Z.div_mod (v / 256 / 256) 256 ltac:(lia)).
  assert (v / 256 / 256 / 256 < 256) by (rewrite <- E2; apply Z.div_lt_upper_bound; lia).
  assert (0 <= v / 256 / 256 / 256) by (rewrite <- E2; apply Z.div_pos; lia).
  rewrite (Z.mod_small (v / 256 / 256 / 256) 256) by lia. lia.
Qed.
Lemma stored_words : forall c c1 f l a, 0 <= a -> a + words l <= 2 ^ 32 -> in_one_region c a (words l) -> Forall (fun k => word (f k)) l ->
  wrote c c1 (word_writes f a l) -> reads_words c1 a (map f l).
Proof.
  intros c c1 f l a A0 A1 (_ & j & m & L) Wf [Ly Ce].
  assert (G : forall q k, nth_error l q = Some k -> reads c1 (a + 4 * Z.of_nat q) 32 (f k)).
  { intros q k Q. assert (Ql : (q < List.length l)%nat) by (apply nth_error_Some; congruence).
    destruct (located_layout c _ _ _ (L (4 * Z.of_nat q) ltac:(unfold words; lia)) c1 Ly) as (m1 & L1 & S1 & _).
    assert (W : word (f k)) by (rewrite Forall_forall in Wf; apply Wf; apply (nth_error_In _ _ Q)).
    assert (B : forall b, 0 <= b < 4 -> cell c1 j (a + 4 * Z.of_nat q - m_start m1 + b) = Some ((f k / 256 ^ b) mod 256)).
    { intros b Hb. apply Ce. rewrite S1. replace (a + 4 * Z.of_nat q - m_start m + b) with (a - m_start m + 4 * Z.of_nat q + b) by lia.
      apply stored_bytes; assumption. }
    apply (reads_mapped c1 _ 32 (f k) j m1 [(f k / 256 ^ 0) mod 256; (f k / 256 ^ 1) mod 256; (f k / 256 ^ 2) mod 256; (f k / 256 ^ 3) mod 256]).
    - assumption.
    - change (Z.to_nat (32 / 8)) with 4%nat. cbn [take_cells].
      set (o := a + 4 * Z.of_nat q - m_start m1). replace (o + 1 + 1 + 1) with (o + 3) by lia. replace (o + 1 + 1) with (o + 2) by lia.
      replace (o + 0) with o by lia.
      pose proof (B 0 ltac:(lia)) as B0. pose proof (B 1 ltac:(lia)) as B1. pose proof (B 2 ltac:(lia)) as B2. pose proof (B 3 ltac:(lia)) as B3.
      fold o in B0, B1, B2, B3. rewrite Z.add_0_r in B0. rewrite B0, B1, B2, B3. reflexivity.
    - symmetry. apply four_bytes. assumption. }
  clear L Wf Ce. revert a A0 A1 G. induction l as [|k l IH]; intros a A0 A1 G; [exact Logic.I|]. cbn [map reads_words]. rewrite words_cons in A1.
  assert (P : 0 <= words l) by (unfold words; lia). split.
  - rewrite wrap_small by (split; change (2 ^ 32) with 4294967296 in *; lia). specialize (G O k eq_refl). rewrite Z.mul_0_r, Z.add_0_r in G. assumption.
  - apply IH; [lia|lia|]. intros q x Q. specialize (G (S q) x Q). replace (a + 4 + 4 * Z.of_nat q) with (a + 4 * Z.of_nat (S q)) by lia. assumption.
Qed.
Lemma loaded_map : forall g l f k, Forall (fun x => gpr x /\ x <> 13) l ->
  loaded f l (map g l) k = if existsb (Z.eqb k) l then g k else f k.
Proof.
  intros g l. induction l as [|x l IH]; intros f k F; [reflexivity|]. inversion F as [|? ? [Gx Nx] F']; subst.
  cbn [map loaded existsb]. rewrite IH by assumption. destruct (existsb (Z.eqb k) l); [destruct (k =? x); reflexivity|].
  rewrite orb_false_r. unfold set, written, kept. unfold gpr in Gx.
  replace (x =? 13) with false by lia. replace (x =? 17) with false by lia. replace (x =? 18) with false by lia.
  replace (x =? -1) with false by lia. replace (x =? -3) with false by lia. replace (x =? -2) with false by lia. cbn [orb andb].
  rewrite !orb_false_r. destruct (k =? x) eqn:E; [|reflexivity]. replace k with x by lia. reflexivity.
Qed.
Lemma count_below_15 : forall v, Z.testbit v 15 = false -> reg_count v = Z.of_nat (List.length (transferred Py2 v)).
Proof.
  intros v B. unfold reg_count, transferred, py_range. change (Z.to_nat 16) with 16%nat. change (Z.to_nat 15) with 15%nat.
  rewrite (seq_S 15 0), map_app, filter_app, app_length. change (map Z.of_nat [(0 + 15)%nat]) with [15]. cbn [filter]. rewrite B. cbn [List.length].
  rewrite Nat.add_0_r. reflexivity.
Qed.
Lemma in_transferred : forall v k, existsb (Z.eqb k) (transferred Py2 v) = (0 <=? k) && (k <=? 14) && Z.testbit v k.
Proof.
  intros v k. apply Bool.eq_iff_eq_true. rewrite existsb_exists. split.
  - intros (x & X & E). replace x with k in X by lia. apply filter_In in X as [X B]. cbn [is_listed] in B. rewrite B.
    apply in_map_iff in X as (n & <- & Hn). apply in_seq in Hn. lia.
  - intros E. exists k. split; [|lia]. apply filter_In. split; [|cbn [is_listed]; lia].
    apply in_map_iff. exists (Z.to_nat k). split; [lia|]. apply in_seq. lia.
Qed.
Lemma kept_aligned : forall v, v mod 4 = 0 -> kept 13 v = v.
Proof. intros v E. unfold kept. cbn [Z.eqb Pos.eqb orb]. lia. Qed.

(*@doc C49: on Python 2, pop of the list right after push -- or after anything that keeps sp and the
    memory -- brings back the listed registers and sp, and changes only the pc otherwise.
    Missing: Python 3 (refuted below); lists with sp or pc, which no push encoding has. @*)
Lemma C49_push_pop_partial_proof : forall c i j v, cpu_ok c -> half v -> Z.testbit v 13 = false -> Z.testbit v 15 = false ->
  is_insn i Push [Regs v] -> is_insn j Pop [Regs v] ->
  in_one_region c (reg c 13 - 4 * reg_count v) (4 * reg_count v) ->
  exists c1, execute Py2 c i = (mkst c1 i, Ok tt) /\ reg c1 13 = reg c 13 - 4 * reg_count v /\
  forall c2, regs_ok c2 -> c_mem c2 = c_mem c1 -> reg c2 13 = reg c1 13 ->
  runs Py2 c2 j (advance (restored v (reg c) (reg c2)) (i_size j)) j.
Proof.
  intros c i j v (H & (S1 & S2 & S3) & HM) V B13 B15 Hi Hj Reg.
  destruct (C49_push_proof Py2 c i v H HM V Hi) as (c1 & E1 & W1 & R1). cbv zeta in *.
  set (n := reg_count v) in *. set (l := transferred Py2 v) in *.
  assert (Nn : n = Z.of_nat (List.length l)) by (apply count_below_15; assumption).
  assert (Wsp : word (reg c 13)) by (apply word_gpr; [assumption|unfold gpr; lia]).
  assert (A0 : 0 <= reg c 13 - 4 * n) by apply Reg.
  set (a := reg c 13 - 4 * n) in *.
  assert (Wa : word a) by (unfold word in *; lia).
  rewrite (wrap_small a Wa) in *.
  assert (Aa : a mod 4 = 0) by (unfold a; replace (reg c 13 - 4 * n) with (reg c 13 + (- n) * 4) by lia; rewrite Z.mod_add by lia; assumption).
  assert (R13 : reg c1 13 = a).
  { rewrite (R1 13) by (unfold core; lia). unfold advance, set at 1, written. cbn [Z.eqb Pos.eqb orb andb]. unfold set, written. cbn [Z.eqb Pos.eqb orb andb].
    apply kept_aligned. assumption. }
  exists c1. split; [assumption|]. split; [assumption|]. intros c2 H2 M2 E2.
  assert (F : Forall (fun x => gpr x /\ x <> 13) l).
  { apply Forall_forall. intros x X. split.
    - pose proof (transferred_gpr Py2 v) as T. rewrite Forall_forall in T. exact (T x X).
    - intros ->. apply filter_In in X as [_ X]. cbn [is_listed] in X. congruence. }
  assert (Wl : words l = 4 * n) by (unfold words; rewrite <- Nn; reflexivity).
  assert (HM1 : mem_ok c1).
  { exact (wrote_ok c c1 _ HM W1). }
  assert (RW : reads_words c1 a (map (set (reg c) 13 a) l)).
  { apply (stored_words c c1 (set (reg c) 13 a) l a); try assumption; rewrite ?Wl; try assumption; try (unfold word in Wsp; lia).
    apply Forall_forall. intros x X. rewrite Forall_forall in F. destruct (F x X) as [Gx Nx].
    unfold set, written. unfold gpr in Gx. replace (x =? 13) with false by lia. replace (x =? 17) with false by lia. cbn [orb andb].
    apply word_gpr; [assumption|exact Gx]. }
  assert (Em : map (set (reg c) 13 a) l = map (reg c) l).
  { apply map_ext_in. intros x X. rewrite Forall_forall in F. destruct (F x X) as [Gx Nx].
    unfold set, written. unfold gpr in Gx. replace (x =? 13) with false by lia. replace (x =? 17) with false by lia. reflexivity. }
  rewrite Em in RW.
  destruct (C49_pop_proof Py2 c2 j v H2 (mem_ok_mem _ _ M2 HM1) V Hj (map (reg c) l)) as [P _].
  { rewrite E2, R13. apply (reads_words_mem c1); assumption. }
  destruct P as [P _]; [apply map_length|]. fold l n in P.
  destruct (P (advance (loaded (set (reg c2) 13 (wrap (reg c2 13 + 4 * n))) l (map (reg c) l)) (i_size j))) as (c3 & E3 & M3 & R3).
  { unfold loaded_pc. cbn [is_listed]. rewrite B15. reflexivity. }
  exists c3. split; [assumption|]. split; [assumption|]. intros k Ck. rewrite (R3 k Ck). apply advance_ext; [|assumption].
  intros x Cx. rewrite loaded_map by assumption. unfold l. rewrite in_transferred. unfold restored.
  rewrite E2, R13. replace (wrap (a + 4 * n)) with (reg c 13) by (unfold a; rewrite wrap_small; unfold word in *; lia).
  destruct ((0 <=? x) && (x <=? 14) && Z.testbit v x) eqn:Ex.
  - destruct ((x =? 13) || (x =? 17)) eqn:Ey; [|reflexivity]. exfalso. assert (x = 13) by lia. subst x. rewrite B13 in Ex. discriminate.
  - unfold set, written. cbn [Z.eqb Pos.eqb andb]. rewrite ?orb_false_r.
    destruct ((x =? 13) || (x =? 17)); [apply kept_aligned; assumption|reflexivity].
Qed.
(*@ex
Example C49_push_pop_partial_ex : cpu_ok ex_state /\ half 0x4011 /\
  in_one_region ex_state (reg ex_state 13 - 4 * reg_count 0x4011) (4 * reg_count 0x4011).
Proof.
  split; [exact ex_state_ok|]. split; [unfold half; lia|]. split; [vm_compute; discriminate|].
  exists 0%nat, (mkmem 0 63 (List.map (fun k => match cell ex_state 0 (Z.of_nat k) with Some b => b | None => 0 end) (List.seq 0 64))).
  intros o O. change (4 * reg_count 0x4011) with 12 in *. change (reg ex_state 13) with 48.
  split; [vm_compute; reflexivity|]. split; [unfold in_region; cbn [m_start m_end]; lia|]. intros j m J. inversion J.
Qed.
@*)
