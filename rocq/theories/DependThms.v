(** * Proofs about what an instruction depends on *)
From Coq Require Import Lia ZifyBool.
From Verif Require Import BitstringModel SpecBits BitFacts BitOps BitMisc BitText HelpersModel SpecArm HelpFacts CpuModel SpecCpu CpuFacts CpuThms InsnModel ExecModel SpecIsa SpecExec SpecWhole ExecFacts ExecArithThms ExecMiscThms ExecShape ExecRows ExecWholeThms
  SpecFrame FrameFacts FrameThms DependFacts.
Local Open Scope bool_scope.
Local Open Scope Z_scope.
(*@imports From Coq Require Import Lia.
From Verif Require Import InsnModel CpuModel SpecCpu TableModel ExecModel ExecFacts SpecIsa SpecExec SpecWhole SpecFrame FrameFacts FrameThms DependThms.
Local Open Scope Z_scope. @*)

Section Classes.
  Variables (py : pyver) (i : insn) (c1 c2 : cpu).
  Hypothesis OK1 : regs_ok c1.
  Hypothesis OK2 : regs_ok c2.
  Hypothesis AG : forall k, uses py i k = true -> content c1 k = content c2 k.
  Local Notation MU := (touches_memory (i_klass i)).
  Local Notation same := (same i MU c1 c2).
  Local Notation rel := (rel i MU c1 c2).
  Local Notation U := (uses py i).

  Lemma sb : forall A B a a' (P : A -> Prop) (P' : B -> Prop) m f, same a a P m -> (forall x, P x -> same a a' P' (f x)) -> same a a' P' (mbind m f).
  Proof. intros A B a a' P P' m f H1 H2. exact (same_bind _ _ _ _ _ _ a a a' P (eqv P') m f f H1 H2). Qed.
  Lemma su : forall A a (P : A -> Prop) m, same a a P m -> same a a (fun _ => True) m.
  Proof. intros A a P m. apply same_any. Qed.
  Lemma s_rget : forall a k, U k = true -> same a a (fun _ => True) (rget k). Proof. intros a k. apply (same_rget i MU U c1 c2 AG). Qed.
  Lemma s_fget : forall a f, U 16 = true -> same a a (fun _ => True) (fget f). Proof. intros a f. apply (same_fget i MU U c1 c2 AG). Qed.
  Lemma s_fset : forall a f v, U 16 = true -> same a a (fun _ => True) (fset f v). Proof. intros a f v. apply (same_fset i MU U c1 c2 AG). Qed.
  Lemma s_flags : forall a r x v, (sets_flags i = true -> U 16 = true) -> same a a (fun _ => True) (set_flags r x v). Proof. intros a r x v. apply (same_flags i MU U c1 c2 AG). Qed.
  Lemma s_read : forall a r k, register_name_to_index r = Some k -> U k = true -> same a a (fun _ => True) (getc (fun c => read_register c r)). Proof. intros a r k. apply (same_read i MU U c1 c2 AG). Qed.
  Lemma s_next : same false true (fun _ => True) pc_next. Proof. apply same_next; assumption. Qed.
  Lemma s_imm_or_m : forall a, (forall m, has (a_imm32 (i_attrs i)) = false -> a_m (i_attrs i) = Some m -> U m = true) ->
    same a a (fun p => fst p = true -> has (a_imm32 (i_attrs i)) = true) imm_or_m.
  Proof.
    intros a H. unfold imm_or_m. eapply sb; [apply same_has_imm|cbv beta; intros h E]. destruct h.
    - eapply sb; [apply same_imm|cbv beta; intros v X]. apply same_ret. auto.
    - eapply sb; [apply (same_attr _ _ _ _ _ _ a_m); skel|cbv beta; intros m M]. eapply sb; [apply s_rget; apply H; [symmetry; exact E|exact M]|intros v _]. apply same_ret. discriminate.
  Qed.
  Lemma s_pc_for_instr : forall a, U 15 = true -> same a a (fun _ => True) (getc pc_for_instr).
  Proof.
    intros a H. apply same_getc. intros s1 s2 K. unfold pc_for_instr.
    rewrite (read_register_same (s_cpu s1) (s_cpu s2) (RName "pc") 15 eq_refl (R_used i MU U c1 c2 AG _ _ _ _ K H)). reflexivity.
  Qed.

  Ltac used K :=
    unfold uses; rewrite ?K; cbv zeta;
    repeat match goal with H : ?f (i_attrs i) = Some _ |- context [?f (i_attrs i)] => rewrite H end;
    cbn [is_reg wants has negb offset_uses]; rewrite ?Z.eqb_refl; rewrite ?orb_true_r; reflexivity.
  Ltac s_step K :=
    match goal with
    | |- DependFacts.same _ _ _ _ _ _ _ (mbind (attr a_setflags) _) => eapply sb; [apply same_setflags|cbv beta; intros ? ?]
    | |- DependFacts.same _ _ _ _ _ _ _ (mbind (attr a_imm32) _) => eapply sb; [apply same_imm|cbv beta; intros ? ?]
    | |- DependFacts.same _ _ _ _ _ _ _ (mbind (attr ?f) _) => eapply sb; [apply (same_attr _ _ _ _ _ _ f); skel|cbv beta; intros ? ?]
    | |- DependFacts.same _ _ _ _ _ _ _ (mbind (hasattr a_imm32) _) => eapply sb; [apply same_has_imm|cbv beta; intros ? ?]
    | |- DependFacts.same _ _ _ _ _ _ _ (mbind (hasattr ?f) _) => eapply sb; [apply (same_hasattr _ _ _ _ _ _ f); skel|cbv beta; intros ? ?]
    | |- DependFacts.same _ _ _ _ _ _ _ (mbind _ _) => apply (sb _ _ _ _ (fun _ => True)); [|intros ? _]
    | |- DependFacts.same _ _ _ _ _ _ _ (let '(_, _) := ?x in _) => destruct x
    | |- DependFacts.same _ _ _ _ _ _ _ (match ?x with (_, _) => _ end) => destruct x
    | |- DependFacts.same _ _ _ _ _ _ _ (if ?b then _ else _) => let E := fresh "B" in destruct b eqn:E
    | |- DependFacts.same _ _ _ _ _ _ _ (match ?x with _ => _ end) => destruct x
    | |- DependFacts.same _ _ _ _ _ _ _ (attr a_imm32) => eapply su, same_imm
    | |- DependFacts.same _ _ _ _ _ _ _ (attr ?f) => eapply su, (same_attr _ _ _ _ _ _ f); skel
    | |- DependFacts.same _ _ _ _ _ _ _ (put_imm _ _) => apply same_put_imm
    | |- DependFacts.same _ _ _ _ _ _ _ (setattr (with_setflags Never)) => apply same_no_flags
    | |- DependFacts.same _ _ _ _ _ _ _ (add_shared _ _ _ _) => apply same_add_shared
    | |- DependFacts.same _ _ _ _ false true _ pc_next => apply s_next
    | |- DependFacts.same _ _ _ _ false true _ (setc _) => apply same_weaken
    | |- DependFacts.same _ _ _ _ _ _ _ (rget _) => apply s_rget; try solve [used K]
    | |- DependFacts.same _ _ _ _ _ _ _ (rset _ _) => apply same_rset
    | |- DependFacts.same _ _ _ _ _ _ _ (fget _) => apply s_fget; try solve [used K]
    | |- DependFacts.same _ _ _ _ _ _ _ (fset _ _) => apply s_fset; try solve [used K]
    | |- DependFacts.same _ _ _ _ _ _ _ (set_flags _ _ _) => apply s_flags; try solve [let H := fresh in intros H; unfold uses; rewrite K, H; cbn [andb]; rewrite ?orb_true_r; reflexivity]
    | |- DependFacts.same _ _ _ _ _ _ _ (getc pc_for_instr) => apply s_pc_for_instr; try solve [used K]
    | |- DependFacts.same _ _ _ _ _ _ _ (getc (fun c => read_memory c _ _)) => apply same_read_memory; rewrite K; reflexivity
    | |- DependFacts.same _ _ _ _ _ _ _ (getc (fun c => read32 c _)) => apply same_read_memory; rewrite K; reflexivity
    | |- DependFacts.same _ _ _ _ _ _ _ (getc get_sp) => apply (s_read _ (RName "sp") 13); [reflexivity|try solve [used K]]
    | |- DependFacts.same _ _ _ _ _ _ _ (setc (fun c => Ok (set_pc c _))) => apply (same_write _ _ _ _ _ (RName "pc") 15); reflexivity
    | |- DependFacts.same _ _ _ _ _ _ _ (setc (fun c => Ok (set_lr c _))) => apply (same_write _ _ _ _ _ (RName "lr") 14); reflexivity
    | |- DependFacts.same _ _ _ _ _ _ _ (setc (fun c => Ok (set_sp c _))) => apply (same_write _ _ _ _ _ (RName "sp") 13); reflexivity
    | |- DependFacts.same _ _ _ _ _ _ _ (setc (fun c => write_memory c _ _ _)) => apply same_write_memory; rewrite K; reflexivity
    | |- DependFacts.same _ _ _ _ _ _ _ (setc (fun c => write32 c _ _)) => apply same_write_memory; rewrite K; reflexivity
    | |- DependFacts.same _ _ _ _ _ _ _ (ret _) => apply same_ret; auto
    | |- DependFacts.same _ _ _ _ _ _ _ (fail _) => apply same_fail
    | |- DependFacts.same _ _ _ _ _ _ _ (lift _) => apply same_lift
    | |- DependFacts.same _ _ _ _ _ _ _ list_bytes => unfold list_bytes
    end.
  Ltac s_auto K := repeat s_step K.

  Lemma s_AddSub : i_klass i = AddSub -> same false true (fun _ => True) eval_AddSub.
  Proof.
    intros K. unfold eval_AddSub. s_step K. apply (sb _ _ _ _ (fun _ => True)); [|intros [[r ca] v] _; s_auto K].
    assert (IM : forall a, same a a (fun p => fst p = true -> has (a_imm32 (i_attrs i)) = true) imm_or_m).
    { intros a. apply s_imm_or_m. intros m E M. unfold uses. rewrite K, E, M. cbn [is_reg negb andb]. rewrite Z.eqb_refl, orb_true_r. reflexivity. }
    destruct x.
    - s_step K. s_step K; [s_auto K|]. eapply sb; [apply IM|]. intros [sh y] S. cbn [fst] in S. s_step K; [s_auto K|]. s_step K; [apply same_put_imm; exact S|]. s_step K. s_step K; [s_auto K|]. apply same_add_shared. exact S.
    - s_step K. s_step K; [s_auto K|]. eapply sb; [apply IM|]. intros [sh y] S. cbn [fst] in S. s_step K. s_step K; [s_auto K|]. apply same_add_shared. exact S.
  Qed.
  Lemma s_BitOp : i_klass i = BitOp -> same false true (fun _ => True) eval_BitOp.
  Proof. intros K. unfold eval_BitOp. s_auto K. Qed.
  Lemma s_BitClear : i_klass i = BitClear -> same false true (fun _ => True) eval_BitClear.
  Proof. intros K. unfold eval_BitClear. s_auto K. Qed.
  Lemma s_ReverseSubtract : i_klass i = ReverseSubtract -> same false true (fun _ => True) eval_ReverseSubtract.
  Proof. intros K. unfold eval_ReverseSubtract. s_auto K. intros _. assumption. Qed.
  Lemma s_Multiply : i_klass i = Multiply -> same false true (fun _ => True) eval_Multiply.
  Proof. intros K. unfold eval_Multiply. s_auto K. Qed.
  Lemma s_AddressToRegister : i_klass i = AddressToRegister -> same false true (fun _ => True) eval_AddressToRegister.
  Proof. intros K. unfold eval_AddressToRegister. s_auto K. Qed.
  Lemma s_Extend : i_klass i = Extend -> same false true (fun _ => True) eval_Extend.
  Proof. intros K. unfold eval_Extend. s_auto K. Qed.
  Lemma s_ByteReverse : i_klass i = ByteReverse -> same false true (fun _ => True) eval_ByteReverse.
  Proof. intros K. unfold eval_ByteReverse. s_auto K. Qed.
  Lemma s_Compare : i_klass i = Compare -> same false true (fun _ => True) eval_Compare.
  Proof.
    intros K. unfold eval_Compare. s_step K. apply (sb _ _ _ _ (fun p => fst p = true -> has (a_imm32 (i_attrs i)) = true)).
    - destruct x; s_auto K; intros; cbn [fst] in *; first [assumption|discriminate].
    - intros [sh y] S. cbn [fst] in S. s_step K. apply (sb _ _ _ _ (fun _ => True)); [s_auto K; exact S|]. intros [y' ci] _. s_step K. s_step K; [s_auto K|]. s_step K; [apply same_add_shared; exact S|]. s_auto K.
  Qed.
  Lemma s_Test : i_klass i = Test -> same false true (fun _ => True) eval_Test.
  Proof. intros K. unfold eval_Test. s_auto K. Qed.
  Lemma s_LoadLiteral : i_klass i = LoadLiteral -> same false true (fun _ => True) eval_LoadLiteral.
  Proof. intros K. unfold eval_LoadLiteral. s_auto K. Qed.
  Lemma s_Branch : i_klass i = Branch -> same false true (fun _ => True) eval_Branch.
  Proof.
    intros K. unfold eval_Branch. s_step K. apply (sb _ _ _ _ (fun _ => True)); [|intros b _; s_auto K; s_auto K].
    apply same_getc. intros s1 s2 H'. destruct (x <? 14) eqn:L.
    - assert (UX : U 16 = true) by (unfold uses; rewrite K; cbv zeta; rewrite H, L; rewrite orb_true_r; reflexivity).
      pose proof (R_used i MU U c1 c2 AG _ _ _ _ H' UX) as E.
      assert (G : forall f, apsr_get (s_cpu s1) f = apsr_get (s_cpu s2) f) by (intros f; apply apsr_get_same, E).
      unfold condition_expr, flag_is, nv_equal, nv_differ. rewrite !G. reflexivity.
    - unfold condition_expr. do 14 (match goal with |- context [x =? ?n] => replace (x =? n) with false by lia end). reflexivity.
  Qed.
  Lemma s_address_of : (i_klass i = Load \/ i_klass i = Store) -> same false false (fun _ => True) address_of.
  Proof.
    intros K. assert (N : forall n, a_n (i_attrs i) = Some n -> U n = true) by (intros n E; unfold uses; destruct K as [-> | ->]; rewrite E; cbn [is_reg]; rewrite Z.eqb_refl; reflexivity).
    unfold address_of. s_step K. apply (sb _ _ _ _ (fun _ => True)).
    - destruct x; [s_auto K|]. s_step K. s_step K.
      { apply s_rget. unfold uses. destruct K as [-> | ->]; cbv zeta; unfold offset_uses; rewrite <- H, H0; cbn [is_reg negb andb]; rewrite Z.eqb_refl; cbn [orb]; rewrite ?orb_true_r; reflexivity. }
      s_step K. s_step K. rename x1 into ty, H1 into T. destruct (sr_eqb ty SR_RRX) eqn:X.
      + assert (UX : U 16 = true) by (unfold uses; destruct ty; try discriminate X; destruct K as [-> | ->]; cbv zeta; unfold offset_uses; rewrite <- H, T; cbn [negb andb Z.eqb Pos.eqb]; rewrite ?orb_true_r; reflexivity).
        s_auto K. exact UX.
      + eapply rel_bind; [apply (rel_fget i MU U c1 c2 OK1 OK2 AG)|cbv beta; intros y1 y2 _]. rewrite (Shift_carry _ ty _ y1 y2) by (intros ->; discriminate X). apply same_lift.
    - intros off _. s_auto K; apply N; assumption.
  Qed.
  Lemma s_Load : i_klass i = Load -> same false true (fun _ => True) eval_Load.
  Proof. intros K. unfold eval_Load. apply (sb _ _ _ _ (fun _ => True)); [apply s_address_of; left; exact K|]. intros [oa ad] _. s_auto K. Qed.
  Lemma s_Store : i_klass i = Store -> same false true (fun _ => True) eval_Store.
  Proof. intros K. unfold eval_Store. apply (sb _ _ _ _ (fun _ => True)); [apply s_address_of; right; exact K|]. intros [oa ad] _. s_auto K. Qed.
  Lemma s_ShiftOp : i_klass i = ShiftOp -> same false true (fun _ => True) eval_ShiftOp.
  Proof.
    intros K. unfold eval_ShiftOp. s_step K. apply (sb _ _ _ _ (fun _ => True)).
    - destruct x; s_auto K. unfold uses. rewrite K. cbv zeta. rewrite <- H, H0. cbn [is_reg negb andb]. rewrite Z.eqb_refl, orb_true_r. reflexivity.
    - intros n _. s_step K. s_step K; [s_auto K|]. s_step K. rename H1 into T, x2 into ty.
      assert (S16 : sets_flags i = true -> U 16 = true) by (intros S; unfold uses; rewrite K; cbv zeta; rewrite S; cbn [Z.eqb Pos.eqb andb]; rewrite !orb_true_r; reflexivity).
      assert (X16 : ty = SR_RRX -> U 16 = true) by (intros ->; unfold uses; rewrite K; cbv zeta; rewrite T; cbn [Z.eqb Pos.eqb andb]; rewrite !orb_true_r; reflexivity).
      eapply rel_bind; [apply (rel_fget i MU U c1 c2 OK1 OK2 AG)|cbv beta; intros y1 y2 Y].
      apply (rel_bind _ _ _ _ _ _ _ _ false false true (fun p q : bs * bs => fst p = fst q /\ (U 16 = true -> snd p = snd q))).
      + apply rel_lift. destruct (Bool.bool_dec (U 16) true) as [u|u].
        * rewrite (Y u). destruct (Shift_C x1 ty n y2); cbn [rrel]; auto.
        * assert (ty <> SR_RRX) by (intros Z; exact (u (X16 Z))). pose proof (Shift_C_carry x1 ty n y1 y2 H1) as Q.
          destruct (Shift_C x1 ty n y1), (Shift_C x1 ty n y2); cbn [rrel] in *; auto. split; [exact Q|intros; contradiction].
      + intros [r k1] [r' k2] [E1 E2]. cbn [fst snd] in E1, E2. subst r'.
        eapply same_bind; [apply (same_attr _ _ _ _ _ _ a_d); skel|intros d _]. eapply same_bind; [apply same_rset|intros _ _].
        eapply rel_bind; [apply (rel_flags i MU U c1 c2 AG _ r (Some k1) (Some k2) None)|intros _ _ _; exact s_next].
        intros S. split; [exact (S16 S)|]. rewrite (E2 (S16 S)). reflexivity.
  Qed.
  Lemma s_Move : i_klass i = Move -> same false true (fun _ => True) eval_Move.
  Proof.
    intros K. unfold eval_Move. s_step K. apply (sb _ _ _ _ (fun p => fst p = true -> has (a_imm32 (i_attrs i)) = true)).
    - destruct x; s_auto K; intros; cbn [fst] in *; first [assumption|discriminate].
    - intros [sh r] S. cbn [fst] in S. s_step K. s_step K; [s_auto K; exact S|]. s_step K. s_step K; [s_auto K|].
      eapply rel_bind; [apply (rel_fget i MU U c1 c2 OK1 OK2 AG)|cbv beta; intros y1 y2 Y].
      eapply rel_bind; [apply (rel_flags i MU U c1 c2 AG _ _ (Some y1) (Some y2) None)|intros _ _ _; exact s_next].
      intros SF. assert (u : U 16 = true) by (unfold uses; rewrite K; cbv zeta; rewrite SF; cbn [Z.eqb Pos.eqb andb]; rewrite !orb_true_r; reflexivity).
      split; [exact u|]. rewrite (Y u). reflexivity.
  Qed.
  Lemma s_load_loop : MU = true -> forall l a, (forall k, In k l -> 0 <= k) -> same false false (fun _ => True) (load_loop py l a).
  Proof.
    intros MT. induction l as [|r l IH]; intros a P; cbn [load_loop]; [apply same_ret; auto|].
    assert (T : forall a, same false false (fun _ => True) (load_loop py l a)) by (intros a'; apply IH; intros k K; apply P; right; exact K).
    eapply sb; [apply same_listed, P; left; reflexivity|cbv beta; intros b _]. destruct b; [|apply T].
    apply (sb _ _ _ _ (fun _ => True)); [apply same_read_memory, MT|intros v _]. apply (sb _ _ _ _ (fun _ => True)); [apply same_rset|intros _ _].
    apply (sb _ _ _ _ (fun _ => True)); [apply same_lift|intros a' _]. apply T.
  Qed.
  Lemma s_store_loop : MU = true -> forall l a, (forall k, In k l -> 0 <= k) ->
    (forall r x, In r l -> a_registers (i_attrs i) = Some x -> is_listed py (bv x) r = true -> U r = true) -> same false false (fun _ => True) (store_loop py l a).
  Proof.
    intros MT. induction l as [|r l IH]; intros a P H; cbn [store_loop]; [apply same_ret; auto|].
    assert (T : forall a, same false false (fun _ => True) (store_loop py l a)) by (intros a'; apply IH; [intros k K; apply P; right; exact K|intros r' x X; apply H; right; exact X]).
    eapply sb; [apply same_listed, P; left; reflexivity|cbv beta; intros b B]. destruct b; [|apply T]. destruct (B eq_refl) as (x & X & L).
    apply (sb _ _ _ _ (fun _ => True)); [apply s_rget, (H r x); [left; reflexivity|exact X|exact L]|intros v _]. apply (sb _ _ _ _ (fun _ => True)); [apply same_write_memory, MT|intros _ _].
    apply (sb _ _ _ _ (fun _ => True)); [apply same_lift|intros a' _]. apply T.
  Qed.
  Lemma in_list_U : (i_klass i = Push \/ i_klass i = StoreMultiple) -> forall r x, In r (py_range 15) -> a_registers (i_attrs i) = Some x -> is_listed py (bv x) r = true -> U r = true.
  Proof.
    intros K r x I X L. assert (E : in_list py (a_registers (i_attrs i)) r = true).
    { rewrite X. cbn [in_list]. apply existsb_exists. exists r. split; [exact I|]. rewrite L, Z.eqb_refl. reflexivity. }
    unfold uses. destruct K as [-> | ->]; cbv zeta; rewrite E; apply orb_true_r.
  Qed.
  Lemma range_pos : forall k, In k (py_range 15) -> 0 <= k.
  Proof. intros k I. apply range_in in I. lia. Qed.
  Lemma s_load_pc : MU = true -> forall a, same false true (fun _ => True) (load_pc py a).
  Proof.
    intros MT a. unfold load_pc. eapply sb; [apply same_listed; lia|cbv beta; intros b _]. destruct b; [|exact s_next].
    apply (sb _ _ _ _ (fun _ => True)); [apply same_read_memory, MT|intros v _]. apply same_weaken. apply (same_write _ _ _ _ _ (RName "pc") 15). reflexivity.
  Qed.
  Lemma s_Push : i_klass i = Push -> same false true (fun _ => True) (eval_Push py).
  Proof. intros K. unfold eval_Push. s_auto K. apply s_store_loop; [rewrite K; reflexivity|exact range_pos|apply in_list_U; left; exact K]. Qed.
  Lemma s_Pop : i_klass i = Pop -> same false true (fun _ => True) (eval_Pop py).
  Proof. intros K. unfold eval_Pop. s_auto K; [apply s_load_loop, range_pos; rewrite K; reflexivity|apply s_load_pc; rewrite K; reflexivity]. Qed.
  Lemma s_StoreMultiple : i_klass i = StoreMultiple -> same false true (fun _ => True) (eval_StoreMultiple py).
  Proof. intros K. unfold eval_StoreMultiple. s_auto K. apply s_store_loop; [rewrite K; reflexivity|exact range_pos|apply in_list_U; right; exact K]. Qed.
  Lemma s_LoadMultiple : i_klass i = LoadMultiple -> same false true (fun _ => True) (eval_LoadMultiple py).
  Proof.
    intros K. unfold eval_LoadMultiple. s_step K. s_step K; [s_auto K|]. s_step K; [apply s_load_loop, range_pos; rewrite K; reflexivity|].
    eapply same_bind; [apply s_load_pc; rewrite K; reflexivity|intros _ _].
    match goal with |- DependFacts.rel _ _ _ _ true true _ ?m ?m => change (same true true (fun _ => True) m) end. s_auto K.
  Qed.
  Lemma s_wreg : forall n v k, dict_get String.eqb n CORE_REGISTER = Some k -> same false false (fun _ => True) (wreg n v).
  Proof. intros n v k E. unfold wreg. rewrite E. apply (same_write _ _ _ _ _ (RIndex k) k). reflexivity. Qed.
  Lemma s_ChangeProcessorState : i_klass i = ChangeProcessorState -> same false true (fun _ => True) eval_ChangeProcessorState.
  Proof. intros K. unfold eval_ChangeProcessorState. s_auto K; eapply s_wreg; reflexivity. Qed.
  Lemma s_MoveFromSpecial : i_klass i = MoveFromSpecial -> same false true (fun _ => True) eval_MoveFromSpecial.
  Proof.
    intros K. assert (SP : forall k, -4 <= k <= -1 \/ 16 <= k <= 18 -> U k = true) by (intros k H; unfold uses; rewrite K; cbv zeta; lia).
    assert (C0 : same false false (fun _ => True) (getc get_control)) by (apply (s_read _ (RName "control") (-4)); [reflexivity|apply SP; lia]).
    assert (C1 : same false false (fun _ => True) (getc is_privileged)).
    { apply same_getc. intros s1 s2 H. unfold is_privileged, get_control.
      rewrite (read_register_same (s_cpu s1) (s_cpu s2) (RName "control") (-4) eq_refl (R_used i MU U c1 c2 AG _ _ _ _ H (SP (-4) ltac:(lia)))). reflexivity. }
    assert (C2 : same false false (fun _ => True) (getc get_ipsr)).
    { apply same_getc. intros s1 s2 H. unfold get_ipsr, get_xpsr.
      rewrite (read_register_same (s_cpu s1) (s_cpu s2) (RName "xpsr") 16 eq_refl (R_used i MU U c1 c2 AG _ _ _ _ H (SP 16 ltac:(lia)))). reflexivity. }
    assert (C3 : same false false (fun _ => True) (getc get_msp)) by (apply (s_read _ (RName "msp") 17); [reflexivity|apply SP; lia]).
    assert (C4 : same false false (fun _ => True) (getc get_psp)) by (apply (s_read _ (RName "psp") 18); [reflexivity|apply SP; lia]).
    assert (C5 : same false false (fun _ => True) (rreg "primask")) by (apply (s_read _ (RIndex (-1)) (-1)); [reflexivity|apply SP; lia]).
    assert (C6 : same false false (fun _ => True) (rreg "basepri")) by (apply (s_read _ (RIndex (-2)) (-2)); [reflexivity|apply SP; lia]).
    assert (C7 : same false false (fun _ => True) (rreg "faultmask")) by (apply (s_read _ (RIndex (-3)) (-3)); [reflexivity|apply SP; lia]).
    unfold eval_MoveFromSpecial, mrs_xpsr, mrs_sp, mrs_mask, mrs_bit, sysm_is, sysm_bit, set_slice.
    repeat (s_step K || assumption).
  Qed.
  Lemma s_all : same false true (fun _ => True) (eval py (i_klass i)).
  Proof.
    assert (X : forall k, i_klass i = k -> same false true (fun _ => True) (eval py k)); [|exact (X _ eq_refl)].
    intros k K. unfold eval. destruct k.
    all: first [exact (s_AddSub K)|exact (s_BitOp K)|exact (s_BitClear K)|exact (s_ShiftOp K)|exact (s_ReverseSubtract K)|exact (s_Multiply K)|exact (s_AddressToRegister K)|exact (s_Extend K)|exact (s_ByteReverse K)|
      exact (s_Move K)|exact (s_Compare K)|exact (s_Test K)|exact (s_Branch K)|exact (s_Load K)|exact (s_Store K)|exact (s_LoadLiteral K)|exact (s_Push K)|exact (s_Pop K)|exact (s_LoadMultiple K)|exact (s_StoreMultiple K)|
      exact (s_ChangeProcessorState K)|exact (s_MoveFromSpecial K)|exact s_next|apply same_weaken, same_fail].
  Qed.
End Classes.

(*@doc C93: executed on two machines that agree on the registers an instruction uses (and on the
    memory, if it touches it), an object has the same outcome: the same exception or none, the same
    object afterwards, the same memory, and every register is left alone in both, or has the same
    content in both, or is the pc and has been moved on in both. @*)
Lemma C93_depends_proof : forall py c1 c2 i, regs_ok c1 -> regs_ok c2 -> (touches_memory (i_klass i) = true -> c_mem c1 = c_mem c2) ->
  (forall k, uses py i k = true -> content c1 k = content c2 k) ->
  let (s1, r1) := execute py c1 i in let (s2, r2) := execute py c2 i in
  r1 = r2 /\ s_self s1 = s_self s2 /\ (c_mem c1 = c_mem c2 -> c_mem (s_cpu s1) = c_mem (s_cpu s2)) /\
  forall k, same_effect (i_size i) c1 c2 (s_cpu s1) (s_cpu s2) k.
Proof.
  intros py c1 c2 i OK1 OK2 M AG.
  assert (I : R i (touches_memory (i_klass i)) c1 c2 false (mkst c1 i) (mkst c2 i)).
  { split; [reflexivity|]. split; [repeat split; auto|]. split; [exact M|]. intros k. left. split; reflexivity. }
  pose proof (s_all py i c1 c2 OK1 OK2 AG _ _ I) as [(S & _ & ME & E) X]. pose proof (C92_memory_proof py c1 i) as M1. pose proof (C92_memory_proof py c2 i) as M2.
  unfold execute in *. destruct (eval py (i_klass i) (mkst c1 i)) as [s1 r1], (eval py (i_klass i) (mkst c2 i)) as [s2 r2]. cbn [fst snd] in *.
  split.
  { destruct r1 as [[]|e1], r2 as [[]|e2]; try contradiction; [reflexivity|congruence]. }
  split; [exact S|]. split; [|exact E]. intros MM. destruct (touches_memory (i_klass i)) eqn:T; [exact (ME eq_refl)|].
  assert (stores_memory (i_klass i) = false) by (destruct (i_klass i); try reflexivity; discriminate T). rewrite M1, M2 by assumption. exact MM.
Qed.
(*@ex
Example C93_depends_ex : exists i, decode_bytes Py2 [11; 68] 34 = Ok i /\ i_klass i = AddSub /\ touches_memory (i_klass i) = false /\
  filter (uses Py2 i) (map (fun n => Z.of_nat n - 4) (seq 0 23)) = [1; 3] /\
  reg_after Py2 (ex_with [(1, 7); (3, 5); (4, 1)]) i 3 = 12 /\ reg_after Py2 (ex_with [(1, 7); (3, 5); (4, 2)]) i 3 = 12.
Proof. eexists. split; [vm_compute; reflexivity|]. vm_compute. repeat split; reflexivity. Qed.
@*)

Lemma commute_all : forall py c i j si sj, cpu_ok c -> from_bytes py i -> from_bytes py j ->
  names_pc py i = false -> names_pc py j = false ->
  independent py i j -> execute py c i = (si, Ok tt) -> execute py c j = (sj, Ok tt) ->
  exists cij cji, execute py (s_cpu si) j = (mkst cij (s_self sj), Ok tt) /\ execute py (s_cpu sj) i = (mkst cji (s_self si), Ok tt) /\
    c_mem cij = c_mem cji /\ forall k, content cij k = content cji k.
Proof.
  intros py c i j si sj OK Bi Bj Ni Nj (I1 & I2 & P1 & P2 & M1 & M2) Ei Ej.
  assert (OKi : cpu_ok (s_cpu si)) by (pose proof (C40_execute_proof py c i OK Bi) as [X _]; rewrite Ei in X; exact X).
  assert (OKj : cpu_ok (s_cpu sj)) by (pose proof (C40_execute_proof py c j OK Bj) as [X _]; rewrite Ej in X; exact X).
  pose proof (C92_memory_proof py c i) as Wi. pose proof (C92_memory_proof py c j) as Wj. rewrite Ei in Wi. rewrite Ej in Wj. cbn [fst] in Wi, Wj.
  assert (TS : forall k, touches_memory k = false -> stores_memory k = false) by (intros []; cbn; auto).
  assert (Fi : forall k, changes py i k = false -> k <> 15 -> content (s_cpu si) k = content c k) by (intros k H N; pose proof (C92_registers_proof py c i k H N) as X; rewrite Ei in X; exact X).
  assert (Fj : forall k, changes py j k = false -> k <> 15 -> content (s_cpu sj) k = content c k) by (intros k H N; pose proof (C92_registers_proof py c j k H N) as X; rewrite Ej in X; exact X).
  assert (Dj : forall k, uses py j k = true -> content c k = content (s_cpu si) k).
  { intros k H. symmetry. apply Fi; [|intros ->; congruence]. destruct (changes py i k) eqn:C; [|reflexivity]. destruct (I1 k C) as [_ X]. congruence. }
  assert (Di : forall k, uses py i k = true -> content c k = content (s_cpu sj) k).
  { intros k H. symmetry. apply Fj; [|intros ->; congruence]. destruct (changes py j k) eqn:C; [|reflexivity]. destruct (I2 k C) as [_ X]. congruence. }
  pose proof (C93_depends_proof py c (s_cpu si) j (proj1 OK) (proj1 OKi) (fun T => eq_sym (Wi ltac:(destruct (stores_memory (i_klass i)); [discriminate (eq_trans (eq_sym T) (M1 eq_refl))|reflexivity]))) Dj) as Xj.
  pose proof (C93_depends_proof py c (s_cpu sj) i (proj1 OK) (proj1 OKj) (fun T => eq_sym (Wj ltac:(destruct (stores_memory (i_klass j)); [discriminate (eq_trans (eq_sym T) (M2 eq_refl))|reflexivity]))) Di) as Xi.
  rewrite Ej in Xj. rewrite Ei in Xi.
  assert (Fij : forall k, changes py j k = false -> k <> 15 -> content (s_cpu (fst (execute py (s_cpu si) j))) k = content (s_cpu si) k) by (intros k; apply C92_registers_proof).
  assert (Fji : forall k, changes py i k = false -> k <> 15 -> content (s_cpu (fst (execute py (s_cpu sj) i))) k = content (s_cpu sj) k) by (intros k; apply C92_registers_proof).
  pose proof (C41_advance_proof py c i si (Ok tt) OK Bi Ni Ei) as Ai. pose proof (C41_advance_proof py c j sj (Ok tt) OK Bj Nj Ej) as Aj.
  pose proof (C92_memory_proof py (s_cpu si) j) as Wij. pose proof (C92_memory_proof py (s_cpu sj) i) as Wji.
  destruct (execute py (s_cpu si) j) as [[cij oij] rij] eqn:Eij. destruct (execute py (s_cpu sj) i) as [[cji oji] rji] eqn:Eji. cbn [fst s_cpu s_self] in *.
  destruct Xj as (<- & Sj & Mj' & Xj). destruct Xi as (<- & Si & Mi' & Xi).
  pose proof (C41_advance_proof py (s_cpu si) j _ (Ok tt) OKi Bj Nj Eij) as Aij. pose proof (C41_advance_proof py (s_cpu sj) i _ (Ok tt) OKj Bi Ni Eji) as Aji. cbn [s_cpu] in Aij, Aji.
  exists cij, cji. subst oij oji. split; [reflexivity|]. split; [reflexivity|].
  split.
  { destruct (stores_memory (i_klass i)) eqn:SI.
    - assert (SJ : stores_memory (i_klass j) = false) by (apply TS, M1; reflexivity). rewrite (Wij SJ). apply Mi'. symmetry. exact (Wj SJ).
    - rewrite (Wji eq_refl). symmetry. apply Mj'. symmetry. exact (Wi eq_refl). }
  intros k. destruct (Z.eq_dec k 15) as [->|N].
  - assert (E : reg cij 15 = reg cji 15) by (rewrite Aij, Aji, Ai, Aj; rewrite !Z.add_mod_idemp_l by discriminate; apply (f_equal (fun z => z mod 2 ^ 32)); lia).
    assert (OKij : cpu_ok cij) by (pose proof (C40_execute_proof py (s_cpu si) j OKi Bj) as [X _]; rewrite Eij in X; exact X).
    assert (OKji : cpu_ok cji) by (pose proof (C40_execute_proof py (s_cpu sj) i OKj Bi) as [X _]; rewrite Eji in X; exact X).
    assert (P : core 15) by (unfold core; lia).
    destruct (proj1 OKij 15 P) as (u & Eu & _). destruct (proj1 OKji 15 P) as (v & Ev & _). unfold reg in E. unfold content. rewrite Eu, Ev in *. congruence.
  - destruct (changes py i k) eqn:Ci.
    + destruct (I1 k Ci) as [Cj _]. rewrite (Fij k Cj N). pose proof (Fj k Cj N) as Z. destruct (Xi k) as [[A B]|[A|[A _]]]; [congruence|exact A|contradiction].
    + rewrite (Fji k Ci N). pose proof (Fi k Ci N) as Z. destruct (Xj k) as [[A B]|[A|[A _]]]; [congruence|symmetry; exact A|contradiction].
Qed.
(*@doc C94: two instructions that do not change what the other one changes or uses can be executed
    in either order: the machine and both objects end up the same. @*)
Lemma C94_commute_proof : forall py c i j si sj, cpu_ok c -> from_bytes py i -> from_bytes py j ->
  names_pc py i = false -> names_pc py j = false ->
  independent py i j -> execute py c i = (si, Ok tt) -> execute py c j = (sj, Ok tt) ->
  exists cij cji, execute py (s_cpu si) j = (mkst cij (s_self sj), Ok tt) /\ execute py (s_cpu sj) i = (mkst cji (s_self si), Ok tt) /\
    c_mem cij = c_mem cji /\ forall k, core k -> reg cij k = reg cji k.
Proof.
  intros py c i j si sj OK Bi Bj Ni Nj I Ei Ej. destruct (commute_all py c i j si sj OK Bi Bj Ni Nj I Ei Ej) as (cij & cji & A & B & M & E).
  exists cij, cji. repeat (split; [assumption|]). intros k _. unfold reg. pose proof (E k) as X. unfold content in X. rewrite X. reflexivity.
Qed.
(*@ex
Example C94_commute_ex : exists i j, decode_bytes Py2 [17; 70] 34 = Ok i /\ decode_bytes Py2 [34; 96] 34 = Ok j /\
  i_klass i = Move /\ i_klass j = Store /\ independent Py2 i j /\ names_pc Py2 i = false /\ names_pc Py2 j = false /\
  snd (execute Py2 ex_state i) = Ok tt /\ snd (execute Py2 ex_state j) = Ok tt.
Proof.
  eexists. eexists. split; [vm_compute; reflexivity|]. split; [vm_compute; reflexivity|]. split; [reflexivity|]. split; [reflexivity|]. split.
  - split; [|split; [|vm_compute; repeat split; discriminate || reflexivity]].
    + intros k H. cbn in H. unfold changes, uses. cbn. unfold written in *. split; [reflexivity|]. lia.
    + intros k H. discriminate H.
  - vm_compute. repeat split; reflexivity.
Qed.
@*)
