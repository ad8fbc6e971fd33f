(** * Proofs about what an instruction changes and what it depends on *)
From Coq Require Import Lia ZifyBool.
From Verif Require Import BitstringModel SpecBits BitFacts BitOps HelpersModel CpuModel SpecCpu CpuFacts CpuThms InsnModel ExecModel SpecExec SpecWhole SpecFrame FrameFacts.
Local Open Scope bool_scope.
Local Open Scope Z_scope.
(*@imports From Coq Require Import Lia.
From Verif Require Import InsnModel CpuModel SpecCpu TableModel ExecModel ExecFacts SpecIsa SpecExec SpecWhole SpecFrame FrameFacts FrameThms.
Local Open Scope Z_scope. @*)

Ltac skel := unfold skeleton; intros ? ? ?; congruence.
Ltac fr_step :=
  match goal with
  | |- fr _ _ _ (mbind (attr a_setflags) _) => eapply fr_bind; [apply fr_setflags|intros ? ?]
  | |- fr _ _ _ (mbind (attr a_imm32) _) => eapply fr_bind; [apply fr_pure; reflexivity|intros ? _]
  | |- fr _ _ _ (mbind (attr ?f) _) => eapply fr_bind; [apply (fr_attr _ _ _ f); skel|cbv beta; intros ? ?]
  | |- fr _ _ _ (mbind (listed _ _) _) => eapply fr_bind; [apply fr_listed; lia|cbv beta; intros ? ?]
  | |- fr _ _ _ (mbind _ _) => apply (fr_bind _ _ _ _ (fun _ => True)); [|intros ? _]
  | |- fr _ _ _ (let '(_, _) := ?x in _) => destruct x
  | |- fr _ _ _ (match ?x with (_, _) => _ end) => destruct x
  | |- fr _ _ _ (if ?b then _ else _) => let E := fresh "B" in destruct b eqn:E
  | |- fr _ _ _ (match ?x with _ => _ end) => destruct x
  | |- fr _ _ _ (attr a_imm32) => apply fr_pure; reflexivity
  | |- fr _ _ _ (attr a_setflags) => eapply fr_any, fr_setflags
  | |- fr _ _ _ (attr ?f) => eapply fr_any, (fr_attr _ _ _ f); skel
  | |- fr _ _ _ (put_imm _ _) => apply fr_put_imm
  | |- fr _ _ _ (setattr (with_setflags Never)) => apply fr_no_flags
  | |- fr _ _ _ (add_shared _ _ _ _) => apply fr_add_shared
  | |- fr _ _ _ pc_next => apply fr_next
  | |- fr _ _ _ (rset _ _) => apply fr_rset
  | |- fr _ _ _ (fset _ _) => apply fr_fset
  | |- fr _ _ _ (set_flags _ _ _) => apply fr_flags
  | |- fr _ _ _ (setc (fun c => Ok (set_pc c _))) => apply fr_set_pc
  | |- fr _ _ _ (setc (fun c => Ok (set_lr c _))) => apply (fr_write _ _ (RName "lr") 14); [reflexivity|]
  | |- fr _ _ _ (setc (fun c => Ok (set_sp c _))) => apply (fr_write _ _ (RName "sp") 13); [reflexivity|]
  | |- fr _ _ _ (setc (fun c => write_memory c _ _ _)) => apply fr_write_memory
  | |- fr _ _ _ (setc (fun c => write32 c _ _)) => apply fr_write_memory
  | |- fr _ _ _ imm_or_m => unfold imm_or_m
  | |- fr _ _ _ (sysm_is _ _ _) => unfold sysm_is
  | |- fr _ _ _ (sysm_bit _ _) => unfold sysm_bit
  | |- fr _ _ _ (mrs_bit _ _) => unfold mrs_bit
  | |- fr _ _ _ address_of => unfold address_of
  | |- fr _ _ _ list_bytes => unfold list_bytes
  | |- fr _ _ _ (load_pc _ _) => unfold load_pc
  | |- fr _ _ _ _ => apply fr_pure; intros ?; reflexivity
  end.
Ltac fr_auto := repeat fr_step.

Lemma range_in : forall k, In k (py_range 15) <-> 0 <= k < 15.
Proof. intros k. unfold py_range. rewrite in_map_iff. split; [intros (n & <- & N); apply in_seq in N; lia|intros H; exists (Z.to_nat k); split; [lia|apply in_seq; lia]]. Qed.
Lemma fr_load_loop : forall py i0 W l a, (forall k, In k l -> 0 <= k) ->
  (forall k r x, In r l -> a_registers (i_attrs i0) = Some x -> is_listed py (bv x) r = true -> written r k = true -> W k = true \/ k = 15) ->
  fr i0 W (fun _ => True) (load_loop py l a).
Proof.
  intros py i0 W. induction l as [|r l IH]; intros a P H; cbn [load_loop]; [fr_auto|].
  eapply fr_bind; [apply fr_listed, P; left; reflexivity|cbv beta; intros b B].
  assert (T : forall a, fr i0 W (fun _ => True) (load_loop py l a)) by (intros a'; apply IH; [intros k K; apply P; right; exact K|intros k r' x X; apply H; right; exact X]).
  destruct b; [|apply T]. destruct (B eq_refl) as (x & X & L).
  apply (fr_bind _ _ _ _ (fun _ => True)); [fr_auto|intros v _]. apply (fr_bind _ _ _ _ (fun _ => True)); [apply fr_rset; intros k; apply (H k r x); [left; reflexivity|exact X|exact L]|intros _ _].
  apply (fr_bind _ _ _ _ (fun _ => True)); [fr_auto|intros a' _]. apply T.
Qed.
Lemma fr_store_loop : forall py i0 W l a, fr i0 W (fun _ => True) (store_loop py l a).
Proof.
  intros py i0 W. induction l as [|r l IH]; intros a; cbn [store_loop]; [fr_auto|].
  apply (fr_bind _ _ _ _ (fun _ => True)); [unfold listed; fr_auto|intros b _]. destruct b; [|apply IH].
  apply (fr_bind _ _ _ _ (fun _ => True)); [fr_auto|intros v _]. apply (fr_bind _ _ _ _ (fun _ => True)); [fr_auto|intros _ _].
  apply (fr_bind _ _ _ _ (fun _ => True)); [fr_auto|intros a' _]. apply IH.
Qed.

Ltac fr_side K :=
  intros; try left; unfold changes; rewrite K; cbv zeta;
  repeat match goal with H : ?f (i_attrs ?i) = Some _ |- context [?f (i_attrs ?i)] => rewrite H end;
  cbn [into wants]; unfold written in *; lia.

(** ** Computations that do not touch the memory *)
Definition still {A} (m : comp A) : Prop := forall s, c_mem (s_cpu (fst (m s))) = c_mem (s_cpu s).
Lemma still_bind : forall A B (m : comp A) (f : A -> comp B), still m -> (forall a, still (f a)) -> still (mbind m f).
Proof. intros A B m f H1 H2 s. specialize (H1 s). unfold mbind. destruct (m s) as [s' [a|e]]; cbn [fst] in *; [rewrite H2|]; assumption. Qed.
Lemma still_pure : forall A (m : comp A), (forall s, fst (m s) = s) -> still m.
Proof. intros A m H s. rewrite H. reflexivity. Qed.
Lemma still_setc : forall f, (forall c c', f c = Ok c' -> c_mem c' = c_mem c) -> still (setc f).
Proof. intros f H s. unfold setc. destruct (f (s_cpu s)) eqn:E; [exact (H _ _ E)|reflexivity]. Qed.
Lemma still_rset : forall d v, still (rset d v).
Proof. intros d v. apply still_setc. intros c c' E. unfold r_set, ri_set in E. destruct (15 <? 0 + d); [discriminate|]. injection E as <-. reflexivity. Qed.
Lemma still_fset : forall f v, still (fset f v).
Proof.
  intros f v. apply still_setc. intros c c' E. unfold apsr_set in E.
  destruct (get_xpsr c) as [x|]; [|discriminate]. cbn [bind] in E. destruct (bs_init _ _) as [b|]; [|discriminate]. cbn [bind] in E.
  destruct (bs_setitem _ _ _) as [y|]; [|discriminate]. cbn [bind] in E. injection E as <-. reflexivity.
Qed.
Lemma still_load_loop : forall py l a, still (load_loop py l a).
Proof.
  intros py. induction l as [|r l IH]; intros a; cbn [load_loop]; [apply still_pure; reflexivity|].
  apply still_bind; [apply still_bind; [apply still_pure; reflexivity|intros x; apply still_bind; [apply still_pure; reflexivity|intros y; apply still_pure; reflexivity]]|intros b].
  destruct b; [|apply IH]. apply still_bind; [apply still_pure; reflexivity|intros v]. apply still_bind; [apply still_rset|intros _].
  apply still_bind; [apply still_pure; reflexivity|intros a']. apply IH.
Qed.
Ltac still_step :=
  match goal with
  | |- still (mbind _ _) => apply still_bind; [|intros ?]
  | |- still (rset _ _) => apply still_rset
  | |- still (fset _ _) => apply still_fset
  | |- still (load_loop _ _ _) => apply still_load_loop
  | |- still (listed _ _) => unfold listed
  | |- still (sysm_is _ _ _) => unfold sysm_is
  | |- still (sysm_bit _ _) => unfold sysm_bit
  | |- still (mrs_bit _ _) => unfold mrs_bit
  | |- still (put_imm _ _) => unfold put_imm
  | |- still (if ?b then _ else _) => destruct b
  | |- still (match ?x with _ => _ end) => destruct x
  | |- still (setc _) => apply still_setc; let E := fresh "E" in intros ? ? E; injection E as <-; reflexivity
  | |- still (setattr _) => intros ?; reflexivity
  | |- still _ => apply still_pure; intros ?; reflexivity
  end.
Ltac still_auto := repeat still_step.

(** ** Computations that keep the status register but for the flags *)
Lemma lows_load_loop : forall x py l a, lows x (load_loop py l a).
Proof.
  intros x py. induction l as [|r l IH]; intros a; cbn [load_loop]; [apply lows_pure; reflexivity|].
  apply lows_bind; [apply lows_bind; [apply lows_pure; reflexivity|intros ?; apply lows_bind; [apply lows_pure; reflexivity|intros y; apply lows_pure; reflexivity]]|intros b].
  destruct b; [|apply IH]. apply lows_bind; [apply lows_pure; reflexivity|intros v]. apply lows_bind; [apply lows_rset|intros _].
  apply lows_bind; [apply lows_pure; reflexivity|intros a']. apply IH.
Qed.
Lemma lows_store_loop : forall x py l a, lows x (store_loop py l a).
Proof.
  intros x py. induction l as [|r l IH]; intros a; cbn [store_loop]; [apply lows_pure; reflexivity|].
  apply lows_bind; [apply lows_bind; [apply lows_pure; reflexivity|intros ?; apply lows_bind; [apply lows_pure; reflexivity|intros y; apply lows_pure; reflexivity]]|intros b].
  destruct b; [|apply IH]. apply lows_bind; [apply lows_pure; reflexivity|intros v]. apply lows_bind; [apply lows_memory|intros _].
  apply lows_bind; [apply lows_pure; reflexivity|intros a']. apply IH.
Qed.
Ltac lows_step :=
  match goal with
  | |- lows _ (mbind _ _) => apply lows_bind; [|intros ?]
  | |- lows _ (rset _ _) => apply lows_rset
  | |- lows _ (fset _ _) => apply lows_fset
  | |- lows _ (load_loop _ _ _) => apply lows_load_loop
  | |- lows _ (store_loop _ _ _) => apply lows_store_loop
  | |- lows _ (listed _ _) => unfold listed
  | |- lows _ (sysm_is _ _ _) => unfold sysm_is
  | |- lows _ (sysm_bit _ _) => unfold sysm_bit
  | |- lows _ (mrs_bit _ _) => unfold mrs_bit
  | |- lows _ (put_imm _ _) => unfold put_imm
  | |- lows _ (if ?b then _ else _) => destruct b
  | |- lows _ (match ?x with _ => _ end) => destruct x
  | |- lows _ (setc (fun c => write_memory c _ _ _)) => apply lows_memory
  | |- lows _ (setc (fun c => write32 c _ _)) => apply lows_memory
  | |- lows _ (setc _) => apply lows_setc; let E := fresh "E" in intros ? ? E ?; injection E as <-; eapply low_write; [reflexivity|discriminate|assumption]
  | |- lows _ (wreg _ _) => fail 1
  | |- lows _ (setattr _) => intros ? ?; assumption
  | |- lows _ _ => apply lows_pure; intros ?; reflexivity
  end.
Ltac lows_auto := repeat lows_step.

(*@doc C92: whatever the object and the machine, and whether it succeeds or raises, an instruction
    leaves alone every register other than the pc that it does not name as a destination. @*)
Lemma C92_registers_proof : forall py c i k, changes py i k = false -> k <> 15 ->
  content (s_cpu (fst (execute py c i))) k = content c k.
Proof.
  intros py c i k H N. unfold execute.
  assert (X : fr i (changes py i) (fun _ => True) (eval py (i_klass i))).
  2:{ destruct (X (mkst c i)) as (_ & F & _); [split; [reflexivity|auto]|]. exact (F k H N). }
  clear. unfold eval. assert (LM : i_klass i = LoadMultiple -> fr i (changes py i) (fun _ => True) (eval_LoadMultiple py)).
  { intros K. unfold eval_LoadMultiple. fr_step. fr_step; [fr_auto|]. fr_step.
    - apply fr_load_loop; [intros k I; apply range_in in I; lia|]. intros k r x I A L Wk. left. apply range_in in I. unfold changes. rewrite K. cbv zeta. rewrite A. cbn [into_list].
      assert (E : existsb (fun r => is_listed py (bv x) r && written r k) (py_range 15) = true) by (apply existsb_exists; exists r; split; [apply range_in; exact I|rewrite L, Wk; reflexivity]). rewrite E. reflexivity.
    - fr_step; [fr_auto|]. fr_step. apply (fr_bind _ _ _ _ (fun w => w = true -> wants (a_wback (i_attrs i)) = true)).
      + match goal with |- fr _ _ _ (if ?b then _ else _) => destruct b end; [|apply fr_ret; discriminate].
        fr_step. fr_step. fr_step; [fr_auto|]. intros s KS. unfold lift. cbn [fst snd]. split; [exact KS|]. split; [reflexivity|]. intros. match goal with H : a_wback _ = _ |- _ => rewrite H end. reflexivity.
      + intros [|] w; [|fr_auto]. specialize (w eq_refl). fr_auto. intros k Wk. left. unfold changes. rewrite K. cbv zeta. rewrite w.
        match goal with H : a_n _ = Some ?x, W : written ?x _ = true |- _ => rewrite H; cbn [into]; rewrite W end. rewrite orb_true_r. reflexivity. }
  assert (D : forall d k, a_d (i_attrs i) = Some d -> written d k = true -> into (a_d (i_attrs i)) k = true) by (intros d k -> W; exact W).
  destruct (i_klass i) eqn:K; try exact (LM eq_refl); clear LM; unfold eval_Instruction, eval_AddSub, eval_BitOp, eval_BitClear, eval_ShiftOp, eval_ReverseSubtract, eval_Multiply, eval_AddressToRegister, eval_Extend, eval_ByteReverse,
    eval_Move, eval_ShiftedMoveNegate, eval_Compare, eval_Test, eval_Branch, eval_Load, eval_Store, eval_LoadLiteral, eval_Push, eval_Pop, eval_LoadMultiple, eval_StoreMultiple, eval_ChangeProcessorState,
    eval_MoveFromSpecial, eval_MoveToSpecial; fr_auto.
  all: try solve [fr_side K]. all: try apply fr_store_loop.
  all: try solve [apply fr_load_loop; [intros k I; apply range_in in I; lia|]; intros k r x I A L Wk; left; apply range_in in I; unfold changes; rewrite K; cbv zeta; rewrite A; cbn [into_list];
    assert (E : existsb (fun r => is_listed py (bv x) r && written r k) (py_range 15) = true) by (apply existsb_exists; exists r; split; [apply range_in; exact I|rewrite L, Wk; reflexivity]); rewrite E; rewrite ?orb_true_r; reflexivity].
  all: try solve [unfold wreg; change (dict_get String.eqb "primask"%string CORE_REGISTER) with (Some (-1)); change (dict_get String.eqb "faultmask"%string CORE_REGISTER) with (Some (-3)); cbv iota;
    match goal with |- context [RIndex ?j] => apply (fr_write _ _ (RIndex j) j); [reflexivity|fr_side K] end].
  all: unfold sysm_is, mrs_xpsr, mrs_sp, mrs_mask, mrs_bit, sysm_bit, rreg; fr_auto.
Qed.
(*@ex
Example C92_registers_ex : exists i, decode_bytes Py2 [11; 68] 34 = Ok i /\ i_klass i = AddSub /\
  filter (changes Py2 i) (map (fun n => Z.of_nat n - 4) (seq 0 23)) = [3].
Proof. eexists. split; [vm_compute; reflexivity|]. vm_compute. repeat split; reflexivity. Qed.
@*)

(*@doc C92: only stores, pushes and multiple stores change the memory. @*)
Lemma C92_memory_proof : forall py c i, stores_memory (i_klass i) = false -> c_mem (s_cpu (fst (execute py c i))) = c_mem c.
Proof.
  intros py c i H. unfold execute. assert (X : still (eval py (i_klass i))); [|exact (X (mkst c i))].
  unfold eval. destruct (i_klass i); try discriminate H; clear H; unfold eval_Instruction, eval_AddSub, eval_BitOp, eval_BitClear, eval_ShiftOp, eval_ReverseSubtract, eval_Multiply, eval_AddressToRegister, eval_Extend, eval_ByteReverse,
    eval_Move, eval_ShiftedMoveNegate, eval_Compare, eval_Test, eval_Branch, eval_Load, eval_LoadLiteral, eval_Pop, eval_LoadMultiple, eval_ChangeProcessorState,
    eval_MoveFromSpecial, eval_MoveToSpecial, add_shared, put_imm, imm_or_m, address_of, list_bytes, load_pc, set_flags, pc_next, pc_add, sysm_is, mrs_xpsr, mrs_sp, mrs_mask, mrs_bit, sysm_bit, rreg, wreg; still_auto.
Qed.
(*@ex
Example C92_memory_ex : exists i j, decode_bytes Py2 [11; 104] 34 = Ok i /\ decode_bytes Py2 [11; 96] 34 = Ok j /\
  stores_memory (i_klass i) = false /\ stores_memory (i_klass j) = true /\ i_klass i = Load.
Proof. eexists. eexists. split; [vm_compute; reflexivity|]. split; [vm_compute; reflexivity|]. vm_compute. repeat split; reflexivity. Qed.
@*)

(*@doc C92: of the status register an instruction changes at most the four flags; the other bits,
    among them the number of the exception and the Thumb bit, stay. @*)
Lemma C92_status_proof : forall py c i x, content c 16 = Some x -> word x ->
  exists y, content (s_cpu (fst (execute py c i))) 16 = Some y /\ word y /\ forall b, 0 <= b < 28 -> Z.testbit y b = Z.testbit x b.
Proof.
  intros py c i x X Wx. unfold execute. assert (L : lows x (eval py (i_klass i))).
  2:{ apply (L (mkst c i)). exists x. cbn [s_cpu]. auto. }
  unfold eval. destruct (i_klass i); unfold eval_Instruction, eval_AddSub, eval_BitOp, eval_BitClear, eval_ShiftOp, eval_ReverseSubtract, eval_Multiply, eval_AddressToRegister, eval_Extend, eval_ByteReverse,
    eval_Move, eval_ShiftedMoveNegate, eval_Compare, eval_Test, eval_Branch, eval_Load, eval_Store, eval_LoadLiteral, eval_Push, eval_Pop, eval_LoadMultiple, eval_StoreMultiple, eval_ChangeProcessorState,
    eval_MoveFromSpecial, eval_MoveToSpecial, add_shared, put_imm, imm_or_m, address_of, list_bytes, load_pc, set_flags, pc_next, pc_add, sysm_is, mrs_xpsr, mrs_sp, mrs_mask, mrs_bit, sysm_bit, rreg; lows_auto; unfold wreg;
    change (dict_get String.eqb "primask"%string CORE_REGISTER) with (Some (-1)); change (dict_get String.eqb "faultmask"%string CORE_REGISTER) with (Some (-3)); cbv iota; lows_auto.
Qed.
(*@ex
Example C92_status_ex : exists i, decode_bytes Py2 [137; 66] 34 = Ok i /\ i_klass i = Compare /\
  content ex_state 16 = Some (reg ex_state 16) /\ word (reg ex_state 16) /\ reg_after Py2 ex_state i 16 <> reg ex_state 16.
Proof. eexists. split; [vm_compute; reflexivity|]. split; [reflexivity|]. split; [vm_compute; reflexivity|]. split; [vm_compute; split; discriminate || reflexivity|]. vm_compute. discriminate. Qed.
@*)
