(** * Proofs about executing instructions over any delegate *)
From Coq Require Import ZArith List Lia Bool String.
From Verif Require Import SpecWhole ExecShape ExecRows HandThms DelegateExecModel SpecBits SpecApi SpecExec SpecAny ApiThms CpuFacts.
Import ListNotations.
Local Open Scope list_scope.
Local Open Scope Z_scope.

(*@imports
From Coq Require Import ZArith List Bool String.
From Verif Require Import SpecIsa SpecWhole DelegateExecModel SpecBits SpecApi SpecCpu SpecExec SpecAny AnyThms.
Import ListNotations.
Local Open Scope list_scope.
Local Open Scope Z_scope.
@*)

(** ** Two delegates *)
Section Two.
  Context {S1 S2 : Type} (R : S1 -> S2 -> Prop) (d1 : delegate S1) (d2 : delegate S2).
  Hypothesis M : mimics R d1 d2.

  Definition sim {A} (m1 : dcomp S1 A) (m2 : dcomp S2 A) : Prop := forall s1 s2 i, R s1 s2 ->
    snd (m1 (mkdst s1 i)) = snd (m2 (mkdst s2 i)) /\
    d_self (fst (m1 (mkdst s1 i))) = d_self (fst (m2 (mkdst s2 i))) /\
    R (d_state (fst (m1 (mkdst s1 i)))) (d_state (fst (m2 (mkdst s2 i)))).

  Lemma sim_bind : forall A B (m1 : dcomp S1 A) m2 (f1 : A -> dcomp S1 B) f2,
    sim m1 m2 -> (forall a, sim (f1 a) (f2 a)) -> sim (dbind m1 f1) (dbind m2 f2).
  Proof.
    intros A B m1 m2 f1 f2 H F s1 s2 i Rs. unfold dbind. specialize (H s1 s2 i Rs).
    destruct (m1 (mkdst s1 i)) as [[t1 i1] r1], (m2 (mkdst s2 i)) as [[t2 i2] r2]. cbn [fst snd d_self d_state] in H.
    destruct H as (-> & -> & H). destruct r2 as [a|e].
    - apply F, H.
    - repeat split; assumption.
  Qed.
  Lemma sim_ret : forall A (a : A), sim (dret a) (dret a).
  Proof. intros A a s1 s2 i Rs. repeat split; assumption. Qed.
  Lemma sim_fail : forall A e, sim (@dfail S1 A e) (@dfail S2 A e).
  Proof. intros A e s1 s2 i Rs. repeat split; assumption. Qed.
  Lemma sim_lift : forall A (r : res A), sim (dlift r) (dlift r).
  Proof. intros A r s1 s2 i Rs. repeat split; assumption. Qed.
  Lemma sim_attr : forall A (f : attrs -> option A), sim (dattr f) (dattr f).
  Proof. intros A f s1 s2 i Rs. repeat split; assumption. Qed.
  Lemma sim_hasattr : forall A (f : attrs -> option A), sim (dhasattr f) (dhasattr f).
  Proof. intros A f s1 s2 i Rs. repeat split; assumption. Qed.
  Lemma sim_setattr : forall f, sim (dsetattr f) (dsetattr f).
  Proof. intros f s1 s2 i Rs. repeat split; assumption. Qed.
  Lemma sim_size : sim dsize dsize.
  Proof. intros s1 s2 i Rs. repeat split; assumption. Qed.
  Lemma sim_ask : forall A (f1 : S1 -> S1 * res A) f2, (forall s1 s2, R s1 s2 -> alike R (f1 s1) (f2 s2)) -> sim (dask f1) (dask f2).
  Proof.
    intros A f1 f2 H s1 s2 i Rs. unfold dask. cbn [d_state d_self]. specialize (H s1 s2 Rs). unfold alike in H.
    destruct (f1 s1) as [t1 r1], (f2 s2) as [t2 r2]. cbn [fst snd] in *. destruct H as [-> H]. repeat split; assumption.
  Qed.

  Lemma alike_use : forall A (x : S1 * res (option bs)) y (f : bs -> res A), alike R x y -> alike R (g_use x f) (g_use y f).
  Proof. intros A [s1 r1] [s2 r2] f [E H]. cbn [fst snd] in *. subst r2. split; [reflexivity|exact H]. Qed.
  Lemma alike_read : forall r s1 s2, R s1 s2 -> alike R (g_read_register (Some d1) r s1) (g_read_register (Some d2) r s2).
  Proof.
    intros r s1 s2 Rs. unfold g_read_register. destruct (M s1 s2 Rs) as (H & _). specialize (H (register_name_to_index r)). unfold alike in H.
    destruct (del_read_register d1 _ s1) as [t1 r1], (del_read_register d2 _ s2) as [t2 r2]. cbn [fst snd] in *. destruct H as [-> H]. split; [reflexivity|exact H].
  Qed.
  Lemma alike_write : forall r v s1 s2, R s1 s2 -> alike R (g_write_register (Some d1) r v s1) (g_write_register (Some d2) r v s2).
  Proof. intros r v s1 s2 Rs. apply (M s1 s2 Rs). Qed.
  Lemma alike_load : forall a n s1 s2, R s1 s2 -> alike R (g_read_memory (Some d1) a n s1) (g_read_memory (Some d2) a n s2).
  Proof.
    intros a n s1 s2 Rs. unfold g_read_memory. destruct (M s1 s2 Rs) as (_ & _ & H & _). specialize (H (num_val a) n). unfold alike in H.
    destruct (del_read_memory d1 _ _ s1) as [t1 r1], (del_read_memory d2 _ _ s2) as [t2 r2]. cbn [fst snd] in *. destruct H as [-> H]. split; [reflexivity|exact H].
  Qed.
  Lemma alike_store : forall a v n s1 s2, R s1 s2 -> alike R (g_write_memory (Some d1) a v n s1) (g_write_memory (Some d2) a v n s2).
  Proof. intros a v n s1 s2 Rs. apply (M s1 s2 Rs). Qed.
  Lemma alike_same : forall A (r : res A) s1 s2, R s1 s2 -> alike R (s1, r) (s2, r).
  Proof. intros A r s1 s2 Rs. split; [reflexivity|exact Rs]. Qed.

  Lemma sim_read : forall r, sim (dread d1 r) (dread d2 r).
  Proof. intros r. apply sim_ask. intros s1 s2 Rs. apply alike_use, alike_read, Rs. Qed.
  Lemma sim_write : forall r v, sim (dwrite d1 r v) (dwrite d2 r v).
  Proof. intros r v. apply sim_ask. intros s1 s2 Rs. apply alike_write, Rs. Qed.
  Lemma sim_load : forall a n, sim (dload d1 a n) (dload d2 a n).
  Proof. intros a n. apply sim_ask. intros s1 s2 Rs. apply alike_use, alike_load, Rs. Qed.
  Lemma sim_store : forall a v n, sim (dstore d1 a v n) (dstore d2 a v n).
  Proof. intros a v n. apply sim_ask. intros s1 s2 Rs. apply alike_store, Rs. Qed.
  Lemma sim_rget : forall k, sim (drget d1 k) (drget d2 k).
  Proof.
    intros k. apply sim_ask. intros s1 s2 Rs. apply alike_use. unfold g_ri_get. cbv zeta.
    destruct (15 <? _); [apply alike_same, Rs|apply alike_read, Rs].
  Qed.
  Lemma sim_rset : forall k v, sim (drset d1 k v) (drset d2 k v).
  Proof.
    intros k v. apply sim_ask. intros s1 s2 Rs. unfold g_ri_set. cbv zeta.
    destruct (15 <? _); [apply alike_same, Rs|apply alike_write, Rs].
  Qed.
  Lemma sim_fget : forall f, sim (dfget d1 f) (dfget d2 f).
  Proof. intros f. apply sim_ask. intros s1 s2 Rs. apply alike_use, alike_read, Rs. Qed.
  Lemma sim_fset : forall f v, sim (dfset d1 f v) (dfset d2 f v).
  Proof.
    intros f v. apply sim_ask. intros s1 s2 Rs. unfold g_apsr_set. pose proof (alike_read (RName "xpsr") s1 s2 Rs) as H. unfold alike in H.
    destruct (g_read_register (Some d1) _ s1) as [t1 r1], (g_read_register (Some d2) _ s2) as [t2 r2]. cbn [fst snd] in H. destruct H as [-> H].
    match goal with |- alike _ (match ?x with _ => _ end) _ => destruct x end; [apply alike_write, H|apply alike_same, H].
  Qed.
  Lemma sim_pc4 : sim (dask (g_pc_for_instr (Some d1))) (dask (g_pc_for_instr (Some d2))).
  Proof. apply sim_ask. intros s1 s2 Rs. apply alike_use, alike_read, Rs. Qed.
  Lemma sim_priv : sim (dask (g_is_privileged (Some d1))) (dask (g_is_privileged (Some d2))).
  Proof. apply sim_ask. intros s1 s2 Rs. apply alike_use, alike_read, Rs. Qed.
  Lemma sim_ipsr : sim (dask (g_ipsr (Some d1))) (dask (g_ipsr (Some d2))).
  Proof. apply sim_ask. intros s1 s2 Rs. apply alike_use, alike_read, Rs. Qed.
End Two.

(** Case distinction on what a computation branches on. *)
Ltac split_head x := match x with
  | if ?b then _ else _ => destruct b eqn:?
  | match ?y with (_, _) => _ end => is_var y; destruct y
  | match ?y with Some _ => _ | None => _ end => is_var y; destruct y
  end.

Section Two_eval.
  Context {S1 S2 : Type} (R : S1 -> S2 -> Prop) (d1 : delegate S1) (d2 : delegate S2).
  Hypothesis M : mimics R d1 d2.
  Ltac go := repeat (cbv beta iota; lazymatch goal with
   | |- sim _ (dbind _ _) _ => apply sim_bind; [|intros ?]
   | |- sim _ (dret _) _ => apply sim_ret
   | |- sim _ (dfail _) _ => apply sim_fail
   | |- sim _ (dlift _) _ => apply sim_lift
   | |- sim _ (dattr _) _ => apply sim_attr
   | |- sim _ (dhasattr _) _ => apply sim_hasattr
   | |- sim _ (dsetattr _) _ => apply sim_setattr
   | |- sim _ dsize _ => apply sim_size
   | |- sim _ (dread _ _) _ => apply sim_read, M
   | |- sim _ (dwrite _ _ _) _ => apply sim_write, M
   | |- sim _ (dload _ _ _) _ => apply sim_load, M
   | |- sim _ (dstore _ _ _ _) _ => apply sim_store, M
   | |- sim _ (drget _ _) _ => apply sim_rget, M
   | |- sim _ (drset _ _ _) _ => apply sim_rset, M
   | |- sim _ (dfget _ _) _ => apply sim_fget, M
   | |- sim _ (dfset _ _ _) _ => apply sim_fset, M
   | |- sim _ (dask (g_pc_for_instr _)) _ => apply sim_pc4, M
   | |- sim _ (dask (g_is_privileged _)) _ => apply sim_priv, M
   | |- sim _ (dask (g_ipsr _)) _ => apply sim_ipsr, M
   | H : context [dpc_next] |- sim _ (dpc_next _) _ => apply H
   | H : context [dset_flags] |- sim _ (dset_flags _ _ _ _) _ => apply H
   | H : context [dstore_loop] |- sim _ (dstore_loop _ _ _ _) _ => apply H
   | H : context [dload_loop] |- sim _ (dload_loop _ _ _ _) _ => apply H
   | |- sim _ ?x _ => split_head x
   end).

  Lemma sim_pc_next : sim R (dpc_next d1) (dpc_next d2).
  Proof. unfold dpc_next, dpc_add. go. Qed.
  Lemma sim_set_flags : forall x c o, sim R (dset_flags d1 x c o) (dset_flags d2 x c o).
  Proof. intros x c o. unfold dset_flags. cbv zeta. go. Qed.
  Lemma sim_store_loop : forall py l a, sim R (dstore_loop d1 py l a) (dstore_loop d2 py l a).
  Proof. intros py l. induction l as [|k l IH]; intros a; cbn [dstore_loop]; unfold dlisted; go. Qed.
  Lemma sim_load_loop : forall py l a, sim R (dload_loop d1 py l a) (dload_loop d2 py l a).
  Proof. intros py l. induction l as [|k l IH]; intros a; cbn [dload_loop]; unfold dlisted; go. Qed.
  Lemma sim_eval : forall py k, sim R (deval d1 py k) (deval d2 py k).
  Proof.
    pose proof sim_pc_next as N. pose proof sim_set_flags as F. pose proof sim_store_loop as LS. pose proof sim_load_loop as LL.
    intros py k. destruct k; cbn [deval];
    unfold deval_Instruction, deval_AddSub, deval_BitOp, deval_BitClear, deval_ShiftOp, deval_ReverseSubtract, deval_Multiply, deval_AddressToRegister,
      deval_Extend, deval_ByteReverse, deval_Move, deval_ShiftedMoveNegate, deval_Compare, deval_Test, deval_Branch, deval_Load, deval_Store,
      deval_LoadLiteral, deval_Push, deval_Pop, deval_LoadMultiple, deval_StoreMultiple, deval_ChangeProcessorState, deval_MoveFromSpecial,
      deval_MoveToSpecial, dimm_or_m, dadd_shared, dput_imm, daddress_of, dload_pc, dlisted, dlist_bytes, dwreg, dmrs_xpsr, dmrs_sp, dmrs_mask, dmrs_bit, drreg,
      dset_slice, dsysm_is, dsysm_bit, dcondition_expr, dflag_is, dnv_equal, dnv_differ, dand_then, dor_else; cbn [dict_get String.eqb Ascii.eqb Bool.eqb CORE_REGISTER];
    go.
  Qed.
End Two_eval.

(** ** The mock delegate *)
Definition conv {A} (x : st * res A) : dst cpu * res A := (mkdst (s_cpu (fst x)) (s_self (fst x)), snd x).
Definition eqm {A} (m1 : dcomp cpu A) (m2 : comp A) : Prop := forall c i, m1 (mkdst c i) = conv (m2 (mkst c i)).
Lemma eqm_bind : forall A B (m1 : dcomp cpu A) m2 (f1 : A -> dcomp cpu B) f2,
  eqm m1 m2 -> (forall a, eqm (f1 a) (f2 a)) -> eqm (dbind m1 f1) (mbind m2 f2).
Proof.
  intros A B m1 m2 f1 f2 H F c i. unfold dbind, mbind. rewrite H. destruct (m2 (mkst c i)) as [[t j] [a|e]]; [|reflexivity].
  unfold conv at 1. cbn [fst snd s_cpu s_self]. apply F.
Qed.
Lemma eqm_ret : forall A (a : A), eqm (dret a) (ret a).
Proof. intros A a c i. reflexivity. Qed.
Lemma eqm_fail : forall A e, eqm (@dfail cpu A e) (@fail A e).
Proof. intros A e c i. reflexivity. Qed.
Lemma eqm_lift : forall A (r : res A), eqm (dlift r) (lift r).
Proof. intros A r c i. reflexivity. Qed.
Lemma eqm_attr : forall A (f : attrs -> option A), eqm (dattr f) (attr f).
Proof. intros A f c i. reflexivity. Qed.
Lemma eqm_hasattr : forall A (f : attrs -> option A), eqm (dhasattr f) (hasattr f).
Proof. intros A f c i. reflexivity. Qed.
Lemma eqm_setattr : forall f, eqm (dsetattr f) (setattr f).
Proof. intros f c i. reflexivity. Qed.
Lemma eqm_size : eqm dsize size.
Proof. intros c i. reflexivity. Qed.
Lemma eqm_get : forall A (f : cpu -> cpu * res A) g, (forall c, f c = (c, g c)) -> eqm (dask f) (getc g).
Proof. intros A f g H c i. unfold dask, getc. cbn [d_state d_self]. rewrite H. reflexivity. Qed.
Lemma eqm_set : forall (f : cpu -> cpu * res unit) g, (forall c, f c = SpecApi.writes c (g c)) -> eqm (dask f) (setc g).
Proof. intros f g H c i. unfold dask, setc, SpecApi.writes in *. cbn [d_state d_self s_cpu s_self]. rewrite H. destruct (g c); reflexivity. Qed.

Lemma use_reads : forall A (f : bs -> res A) (c : cpu) r, g_use (SpecApi.reads Some c r) f = (c, let* b := r in f b).
Proof. intros A f c [b|e]; reflexivity. Qed.
Lemma bind_Ok : forall A (r : res A), (let* b := r in Ok b) = r.
Proof. intros A [b|e]; reflexivity. Qed.
Ltac mock := let c := fresh "c" in
  first [apply eqm_get | apply eqm_set]; intros c;
  destruct (C75_mock_proof c) as (M1 & M2 & M3 & M4 & M5 & M6 & _ & _ & M9 & M10 & M11 & M12 & M13);
  rewrite ?M1, ?M2, ?M3, ?M4, ?M5, ?M6, ?M9, ?M10, ?M11, ?M12, ?M13, ?use_reads, ?bind_Ok; reflexivity.
Lemma eqm_rget : forall k, eqm (drget mock_delegate k) (rget k). Proof. intros k. mock. Qed.
Lemma eqm_rset : forall k v, eqm (drset mock_delegate k v) (rset k v). Proof. intros k v. mock. Qed.
Lemma eqm_fget : forall f, eqm (dfget mock_delegate f) (fget f). Proof. intros f. mock. Qed.
Lemma eqm_fset : forall f v, eqm (dfset mock_delegate f v) (fset f v). Proof. intros f v. mock. Qed.
Lemma eqm_read : forall r g, (forall c, g c = read_register c r) -> eqm (dread mock_delegate r) (getc g).
Proof. intros r g H. apply eqm_get. intros c. destruct (C75_mock_proof c) as (M1 & _). rewrite M1, use_reads, bind_Ok, H. reflexivity. Qed.
Lemma eqm_write : forall r v g, (forall c, g c = Ok (write_register c r v)) -> eqm (dwrite mock_delegate r v) (setc g).
Proof. intros r v g H. apply eqm_set. intros c. rewrite H. reflexivity. Qed.
Lemma eqm_load : forall a n, eqm (dload mock_delegate a n) (getc (fun c => read_memory c (NBits a) n)). Proof. intros a n. mock. Qed.
Lemma eqm_store : forall a v n, eqm (dstore mock_delegate a v n) (setc (fun c => write_memory c (NBits a) (NBits v) n)). Proof. intros a v n. mock. Qed.
Lemma eqm_pc4 : eqm (dask (g_pc_for_instr (Some mock_delegate))) (getc pc_for_instr). Proof. mock. Qed.
Lemma eqm_priv : eqm (dask (g_is_privileged (Some mock_delegate))) (getc is_privileged). Proof. mock. Qed.
Lemma eqm_ipsr : eqm (dask (g_ipsr (Some mock_delegate))) (getc get_ipsr). Proof. mock. Qed.
Lemma eqm_cond : forall k, eqm (dcondition_expr mock_delegate k) (getc (condition_expr k)).
Proof.
  assert (F : forall f k, eqm (dflag_is mock_delegate f k) (getc (fun c => flag_is c f k))).
  { intros f k c i. unfold dflag_is, dbind. rewrite eqm_fget. unfold fget, getc, flag_is, conv. cbn [fst snd s_cpu s_self].
    destruct (apsr_get c f) as [b|e]; [|reflexivity]. cbn [bind]. unfold dlift. destruct (bs_eq b (VInt k)) as [[x y]|e]; reflexivity. }
  assert (E : eqm (dnv_equal mock_delegate) (getc nv_equal)).
  { intros c i. unfold dnv_equal, dbind. rewrite eqm_fget. unfold fget, getc, nv_equal, conv. cbn [fst snd s_cpu s_self].
    destruct (apsr_get c FN) as [b|e]; [|reflexivity]. cbn [bind]. rewrite eqm_fget. unfold fget, getc, conv. cbn [fst snd s_cpu s_self].
    destruct (apsr_get c FV) as [b'|e]; [|reflexivity]. cbn [bind]. unfold dlift. destruct (bs_eq b (VBits b')) as [[x y]|e]; reflexivity. }
  assert (D : eqm (dnv_differ mock_delegate) (getc nv_differ)).
  { intros c i. unfold dnv_differ, dbind. rewrite eqm_fget. unfold fget, getc, nv_differ, conv. cbn [fst snd s_cpu s_self].
    destruct (apsr_get c FN) as [b|e]; [|reflexivity]. cbn [bind]. rewrite eqm_fget. unfold fget, getc, conv. cbn [fst snd s_cpu s_self].
    destruct (apsr_get c FV) as [b'|e]; [|reflexivity]. cbn [bind]. unfold dlift. destruct (bs_ne b (VBits b')) as [[x y]|e]; reflexivity. }
  assert (AN : forall a b a' b', eqm a (getc a') -> eqm b (getc b') -> eqm (dand_then a b) (getc (fun c => and_then (a' c) (b' c)))).
  { intros a b a' b' Ha Hb c i. unfold dand_then, dbind. rewrite Ha. unfold getc, and_then, conv. cbn [fst snd s_cpu s_self].
    destruct (a' c) as [[|]|e]; [|reflexivity|reflexivity]. cbn [bind]. rewrite Hb. reflexivity. }
  assert (OE : forall a b a' b', eqm a (getc a') -> eqm b (getc b') -> eqm (dor_else a b) (getc (fun c => or_else (a' c) (b' c)))).
  { intros a b a' b' Ha Hb c i. unfold dor_else, dbind. rewrite Ha. unfold getc, or_else, conv. cbn [fst snd s_cpu s_self].
    destruct (a' c) as [[|]|e]; [reflexivity| |reflexivity]. cbn [bind]. rewrite Hb. reflexivity. }
  intros k c i. unfold dcondition_expr, condition_expr, getc. cbn [s_cpu].
  repeat match goal with |- (if ?b then _ else _) _ = _ => destruct b end; try reflexivity;
  first [exact (F _ _ c i) | exact (E c i) | exact (D c i) | exact (AN _ _ _ _ (F _ _) (F _ _) c i) | exact (AN _ _ _ _ (F _ _) E c i) | exact (OE _ _ _ _ (F _ _) (F _ _) c i) | exact (OE _ _ _ _ (F _ _) D c i)].
Qed.
Ltac mgo := repeat (cbv beta iota; lazymatch goal with
   | |- eqm (dbind _ _) _ => apply eqm_bind; [|intros ?]
   | |- eqm (dret _) _ => apply eqm_ret
   | |- eqm (dfail _) _ => apply eqm_fail
   | |- eqm (dlift _) _ => apply eqm_lift
   | |- eqm (dattr _) _ => apply eqm_attr
   | |- eqm (dhasattr _) _ => apply eqm_hasattr
   | |- eqm (dsetattr _) _ => apply eqm_setattr
   | |- eqm dsize _ => apply eqm_size
   | |- eqm (dread _ _) _ => apply eqm_read; intros ?; reflexivity
   | |- eqm (dwrite _ _ _) _ => apply eqm_write; intros ?; reflexivity
   | |- eqm (dload _ _ _) _ => apply eqm_load
   | |- eqm (dstore _ _ _ _) _ => apply eqm_store
   | |- eqm (drget _ _) _ => apply eqm_rget
   | |- eqm (drset _ _ _) _ => apply eqm_rset
   | |- eqm (dfget _ _) _ => apply eqm_fget
   | |- eqm (dfset _ _ _) _ => apply eqm_fset
   | |- eqm (dcondition_expr _ _) _ => apply eqm_cond
   | |- eqm (dask (g_pc_for_instr _)) _ => apply eqm_pc4
   | |- eqm (dask (g_is_privileged _)) _ => apply eqm_priv
   | |- eqm (dask (g_ipsr _)) _ => apply eqm_ipsr
   | H : context [dpc_next] |- eqm (dpc_next _) _ => apply H
   | H : context [dset_flags] |- eqm (dset_flags _ _ _ _) _ => apply H
   | H : context [dstore_loop] |- eqm (dstore_loop _ _ _ _) _ => apply H
   | H : context [dload_loop] |- eqm (dload_loop _ _ _ _) _ => apply H
   | |- eqm ?x _ => split_head x
   end).
Lemma eqm_eval : forall py k, eqm (deval mock_delegate py k) (eval py k).
Proof.
  assert (N : eqm (dpc_next mock_delegate) pc_next) by (unfold dpc_next, dpc_add, pc_next, pc_add; mgo).
  assert (F : forall x c o, eqm (dset_flags mock_delegate x c o) (set_flags x c o)) by (intros x c o; unfold dset_flags, set_flags; cbv zeta; mgo).
  assert (LS : forall py l a, eqm (dstore_loop mock_delegate py l a) (store_loop py l a)).
  { intros py l. induction l as [|k l IH]; intros a; cbn [dstore_loop store_loop]; unfold dlisted, listed, write32; mgo. }
  assert (LL : forall py l a, eqm (dload_loop mock_delegate py l a) (load_loop py l a)).
  { intros py l. induction l as [|k l IH]; intros a; cbn [dload_loop load_loop]; unfold dlisted, listed, read32; mgo. }
  intros py k. destruct k; cbn [deval eval];
  unfold deval_Instruction, deval_AddSub, deval_BitOp, deval_BitClear, deval_ShiftOp, deval_ReverseSubtract, deval_Multiply, deval_AddressToRegister,
    deval_Extend, deval_ByteReverse, deval_Move, deval_ShiftedMoveNegate, deval_Compare, deval_Test, deval_Branch, deval_Load, deval_Store,
    deval_LoadLiteral, deval_Push, deval_Pop, deval_LoadMultiple, deval_StoreMultiple, deval_ChangeProcessorState, deval_MoveFromSpecial,
    deval_MoveToSpecial, dimm_or_m, dadd_shared, dput_imm, daddress_of, dload_pc, dlisted, dlist_bytes, dwreg, dmrs_xpsr, dmrs_sp, dmrs_mask, dmrs_bit, drreg,
    dset_slice, dsysm_is, dsysm_bit;
  unfold eval_Instruction, eval_AddSub, eval_BitOp, eval_BitClear, eval_ShiftOp, eval_ReverseSubtract, eval_Multiply, eval_AddressToRegister,
    eval_Extend, eval_ByteReverse, eval_Move, eval_ShiftedMoveNegate, eval_Compare, eval_Test, eval_Branch, eval_Load, eval_Store,
    eval_LoadLiteral, eval_Push, eval_Pop, eval_LoadMultiple, eval_StoreMultiple, eval_ChangeProcessorState, eval_MoveFromSpecial,
    eval_MoveToSpecial, imm_or_m, add_shared, put_imm, address_of, load_pc, listed, list_bytes, wreg, mrs_xpsr, mrs_sp, mrs_mask, mrs_bit, rreg,
    set_slice, sysm_is, sysm_bit, read32, write32;
  cbn [dict_get String.eqb Ascii.eqb Bool.eqb CORE_REGISTER]; mgo.
Qed.

(*@doc C99: with the mock delegate this is the execution all other properties are about. @*)
Lemma C99_mock_proof : forall py c,
  (forall i, dexecute mock_delegate py c i = (let '(t, r) := execute py c i in (mkdst (s_cpu t) (s_self t), r))) /\
  forall l, dcpu_execute mock_delegate py c l = cpu_execute py c l.
Proof.
  intros py c.
  assert (X : forall c i, dexecute mock_delegate py c i = (let '(t, r) := execute py c i in (mkdst (s_cpu t) (s_self t), r))).
  { intros c' i. unfold dexecute, execute. rewrite eqm_eval. unfold conv. destruct (eval py (i_klass i) (mkst c' i)) as [t r]. reflexivity. }
  split; [apply X|]. intros l. revert c. induction l as [|i l IH]; intros c; [reflexivity|]. cbn [dcpu_execute cpu_execute]. rewrite X.
  destruct (execute py c i) as [t [u|e]]; [|reflexivity]. cbn [d_state d_self]. rewrite IH. reflexivity.
Qed.
(*@ex
Example C99_mock_ex : exists c, dexecute mock_delegate Py3 ex_state ex_ands = (mkdst c ex_ands, Ok tt) /\ reg c 0 = 1 /\ reg c 15 = 36.
Proof. eexists. split; [vm_compute; reflexivity|]. split; vm_compute; reflexivity. Qed.
@*)
(*@doc C99: instructions see their delegate only through its four methods.  Of two delegates that
answer every call alike and stay related, an instruction, and a list of them, makes the same: the
same exception or none, the same changes of the instruction, and related delegates. @*)
Lemma C99_alike_proof : forall S1 S2 (R : S1 -> S2 -> Prop) d1 d2, mimics R d1 d2 -> forall py s1 s2, R s1 s2 ->
  (forall i, let x := dexecute d1 py s1 i in let y := dexecute d2 py s2 i in
    snd x = snd y /\ d_self (fst x) = d_self (fst y) /\ R (d_state (fst x)) (d_state (fst y))) /\
  forall l, let x := dcpu_execute d1 py s1 l in let y := dcpu_execute d2 py s2 l in
    snd x = snd y /\ snd (fst x) = snd (fst y) /\ R (fst (fst x)) (fst (fst y)).
Proof.
  intros S1 S2 R d1 d2 M py s1 s2 Rs. split; [intros i; apply (sim_eval R d1 d2 M); exact Rs|].
  intros l. revert s1 s2 Rs. induction l as [|i l IH]; intros s1 s2 Rs; cbv zeta; [repeat split; exact Rs|]. cbn [dcpu_execute].
  pose proof (sim_eval R d1 d2 M py (i_klass i) s1 s2 i Rs) as H. unfold dexecute.
  destruct (deval d1 py (i_klass i) (mkdst s1 i)) as [[t1 i1] r1], (deval d2 py (i_klass i) (mkdst s2 i)) as [[t2 i2] r2].
  cbn [fst snd d_self d_state] in *. destruct H as (-> & -> & H). destruct r2 as [u|e]; [|repeat split; exact H].
  specialize (IH t1 t2 H). cbv zeta in IH. destruct (dcpu_execute d1 py t1 l) as [[u1 l1] r1], (dcpu_execute d2 py t2 l) as [[u2 l2] r2].
  cbn [fst snd] in *. destruct IH as (-> & -> & IH). repeat split; exact IH.
Qed.
(*@ex
Example C99_alike_ex : mimics (fun x y => fst x = y) (recording mock_delegate) mock_delegate.
Proof.
  intros [c l] c' E. cbn [fst] in E. subst c'. split; [|split; [|split]]; intros; cbn [recording del_read_register del_write_register del_read_memory del_write_memory mock_delegate].
  - split; reflexivity.
  - split; reflexivity.
  - split; reflexivity.
  - destruct (mock_write_memory c a v n); split; reflexivity.
Qed.
@*)
(*@doc C99: so whatever is proved of execution on the mock holds for every delegate that behaves like it. @*)
Lemma C99_refines_proof : forall S (R : S -> cpu -> Prop) d, mimics R d mock_delegate -> forall py s c, R s c ->
  (forall i t r, execute py c i = (t, r) -> exists s', dexecute d py s i = (mkdst s' (s_self t), r) /\ R s' (s_cpu t)) /\
  forall l c' l' r, cpu_execute py c l = ((c', l'), r) -> exists s', dcpu_execute d py s l = ((s', l'), r) /\ R s' c'.
Proof.
  intros S R d M py s c Rs. destruct (C99_alike_proof S cpu R d mock_delegate M py s c Rs) as [A1 A2].
  destruct (C99_mock_proof py c) as [E1 E2]. split.
  - intros i t r E. specialize (A1 i). cbv zeta in A1. rewrite E1, E in A1. destruct (dexecute d py s i) as [[s' i'] r'].
    cbn [fst snd d_self d_state] in A1. destruct A1 as (-> & -> & H). exists s'. split; [reflexivity|exact H].
  - intros l c' l' r E. specialize (A2 l). cbv zeta in A2. rewrite E2, E in A2. destruct (dcpu_execute d py s l) as [[s' l2] r'].
    cbn [fst snd] in A2. destruct A2 as (-> & -> & H). exists s'. split; [reflexivity|exact H].
Qed.
(*@ex
Example C99_refines_ex : exists c l, dexecute (recording mock_delegate) Py3 (ex_state, []) ex_ands = (mkdst (c, l) ex_ands, Ok tt) /\ reg c 0 = 1 /\
  map access_of l = [RReg (Some 0); RReg (Some 1); WReg (Some 0); RReg (Some 16); WReg (Some 16); RReg (Some 16); WReg (Some 16); RReg (Some 15); WReg (Some 15)].
Proof. eexists. eexists. split; [vm_compute; reflexivity|]. split; vm_compute; reflexivity. Qed.
@*)

(** ** The calls *)
Section Calls.
  Context {S : Type} (d : delegate S) (s0 : S).
  Definition clean (l : list dcall) : Prop := forall l1 c l2, l = l1 ++ c :: l2 -> refused d c (replay d l1 s0) = None.
  Definition good {A} (x : (S * list dcall) * res A) : Prop :=
    fst (fst x) = replay d (snd (fst x)) s0 /\
    (clean (snd (fst x)) \/ exists l c e, snd (fst x) = l ++ [c] /\ clean l /\ refused d c (replay d l s0) = Some e /\ snd x = Err e).
  Definition trk {A} (m : dcomp (S * list dcall) A) : Prop := forall l i, clean l ->
    good (d_state (fst (m (mkdst (replay d l s0, l) i))), snd (m (mkdst (replay d l s0, l) i))).

  Lemma replay_snoc : forall l c, replay d (l ++ [c]) s0 = repeated d c (replay d l s0).
  Proof. intros l c. unfold replay. rewrite fold_left_app. reflexivity. Qed.
  Lemma clean_snoc : forall l c, clean l -> refused d c (replay d l s0) = None -> clean (l ++ [c]).
  Proof.
    intros l c C N l1 c' l2 E. destruct l2 as [|x l2 _] using rev_ind.
    - apply app_inj_tail in E. destruct E as [<- <-]. exact N.
    - rewrite app_comm_cons, app_assoc in E. apply app_inj_tail in E. destruct E as [E _]. exact (C l1 c' l2 E).
  Qed.
  Lemma good_clean : forall A (r : res A) l, clean l -> good ((replay d l s0, l), r).
  Proof. intros A r l C. split; [reflexivity|left; exact C]. Qed.
  Lemma good_map : forall A B (x : (S * list dcall) * res A) (f : A -> res B), good x ->
    good (fst x, let* a := snd x in f a).
  Proof.
    intros A B [[s l] r] f (E & [C|(l' & c & e & E' & C & F & G)]); cbn [fst snd] in *; (split; [exact E|]); [left; exact C|right].
    exists l', c, e. subst r. repeat split; assumption.
  Qed.
  Lemma trk_bind : forall A B (m : dcomp (S * list dcall) A) (f : A -> dcomp _ B), trk m -> (forall a, trk (f a)) -> trk (dbind m f).
  Proof.
    intros A B m f H F l i C. unfold dbind. specialize (H l i C). destruct (m (mkdst (replay d l s0, l) i)) as [[[s l'] j] r].
    destruct H as (E & H). cbn [fst snd d_state] in *. subst s. destruct r as [a|e].
    - destruct H as [C'|(l1 & c & e & _ & _ & _ & X)]; [|discriminate X]. apply F, C'.
    - split; [reflexivity|]. destruct H as [C'|(l1 & c & e' & E' & C' & G & X)]; [left; exact C'|right]. injection X as <-. exists l1, c, e. repeat split; assumption.
  Qed.
  Lemma trk_still : forall A (m : dcomp (S * list dcall) A), (forall x, d_state (fst (m x)) = d_state x) -> trk m.
  Proof. intros A m H l i C. rewrite H. apply good_clean, C. Qed.
  Lemma trk_ask : forall A (f : S * list dcall -> (S * list dcall) * res A), (forall l, clean l -> good (f (replay d l s0, l))) -> trk (dask f).
  Proof. intros A f H l i C. unfold dask. cbn [d_state d_self]. specialize (H l C). destruct (f (replay d l s0, l)) as [x r]. exact H. Qed.
  (** One call *)
  Lemma good_call : forall A l c (r : res A), clean l -> match r with Ok _ => refused d c (replay d l s0) = None | Err e => refused d c (replay d l s0) = Some e end ->
    good ((repeated d c (replay d l s0), l ++ [c]), r).
  Proof.
    intros A l c r C H. split; [symmetry; apply replay_snoc|]. destruct r as [a|e]; [left; apply clean_snoc; assumption|right].
    exists l, c, e. repeat split; assumption.
  Qed.
  Let D := recording d.
  Lemma good_read : forall r l, clean l -> good (g_read_register (Some D) r (replay d l s0, l)).
  Proof.
    intros r l C. unfold g_read_register, D, recording. cbn [del_read_register]. pose proof (good_call pyval l (DReadReg (register_name_to_index r))) as G.
    cbn [repeated refused] in G. destruct (del_read_register d (register_name_to_index r) (replay d l s0)) as [s v]. cbn [fst snd] in G.
    apply (good_map _ _ ((s, l ++ [DReadReg (register_name_to_index r)]), v)). apply G; [exact C|]. destruct v; reflexivity.
  Qed.
  Lemma good_load : forall a n l, clean l -> good (g_read_memory (Some D) a n (replay d l s0, l)).
  Proof.
    intros a n l C. unfold g_read_memory, D, recording. cbn [del_read_memory]. pose proof (good_call pyval l (DReadMem (num_val a) n)) as G.
    cbn [repeated refused] in G. destruct (del_read_memory d (num_val a) n (replay d l s0)) as [s v]. cbn [fst snd] in G.
    apply (good_map _ _ ((s, l ++ [DReadMem (num_val a) n]), v)). apply G; [exact C|]. destruct v; reflexivity.
  Qed.
  Lemma good_write : forall r v l, clean l -> good (g_write_register (Some D) r v (replay d l s0, l)).
  Proof.
    intros r v l C. unfold g_write_register, D, recording. cbn [del_write_register]. pose proof (good_call unit l (DWriteReg (register_name_to_index r) (num_val v))) as G.
    cbn [repeated refused] in G. destruct (del_write_register d _ _ (replay d l s0)) as [s u]. cbn [fst snd] in G. apply G; [exact C|]. destruct u; reflexivity.
  Qed.
  Lemma good_store : forall a v n l, clean l -> good (g_write_memory (Some D) a v n (replay d l s0, l)).
  Proof.
    intros a v n l C. unfold g_write_memory, D, recording. cbn [del_write_memory]. pose proof (good_call unit l (DWriteMem (num_val a) (num_val v) n)) as G.
    cbn [repeated refused] in G. destruct (del_write_memory d _ _ _ (replay d l s0)) as [s u]. cbn [fst snd] in G. apply G; [exact C|]. destruct u; reflexivity.
  Qed.
  Lemma good_use : forall A (x : (S * list dcall) * res (option bs)) (f : bs -> res A), good x -> good (g_use x f).
  Proof. intros A [y r] f G. exact (good_map _ _ (y, r) (fun o => match o with Some b => f b | None => Err TypeError end) G). Qed.
  Ltac one := apply trk_ask; intros l C; try apply good_use; first [apply good_read | apply good_load | apply good_write | apply good_store]; exact C.
  Lemma trk_read : forall r, trk (dread D r). Proof. intros r. one. Qed.
  Lemma trk_write : forall r v, trk (dwrite D r v). Proof. intros r v. one. Qed.
  Lemma trk_load : forall a n, trk (dload D a n). Proof. intros a n. one. Qed.
  Lemma trk_store : forall a v n, trk (dstore D a v n). Proof. intros a v n. one. Qed.
  Lemma trk_rget : forall k, trk (drget D k).
  Proof. intros k. apply trk_ask. intros l C. apply good_use. unfold g_ri_get. cbv zeta. destruct (15 <? _); [apply good_clean, C|apply good_read, C]. Qed.
  Lemma trk_rset : forall k v, trk (drset D k v).
  Proof. intros k v. apply trk_ask. intros l C. unfold g_ri_set. cbv zeta. destruct (15 <? _); [apply good_clean, C|apply good_write, C]. Qed.
  Lemma trk_fget : forall f, trk (dfget D f). Proof. intros f. one. Qed.
  Lemma trk_fset : forall f v, trk (dfset D f v).
  Proof.
    intros f v. apply trk_ask. intros l C. unfold g_apsr_set. pose proof (good_read (RName "xpsr") l C) as G.
    destruct (g_read_register (Some D) (RName "xpsr") (replay d l s0, l)) as [[s l'] r]. destruct G as (E & G). cbn [fst snd] in *. subst s.
    destruct r as [o|e].
    - destruct G as [C'|(l1 & c & e & _ & _ & _ & X)]; [|discriminate X].
      match goal with |- good (match ?x with _ => _ end) => destruct x end; [apply good_write, C'|apply good_clean, C'].
    - cbn [bind]. split; [reflexivity|]. destruct G as [C'|(l1 & c & e' & E' & C' & G' & X)]; [left; exact C'|right]. injection X as <-.
      exists l1, c, e. repeat split; assumption.
  Qed.
  Lemma trk_pc4 : trk (dask (g_pc_for_instr (Some D))). Proof. one. Qed.
  Lemma trk_priv : trk (dask (g_is_privileged (Some D))). Proof. one. Qed.
  Lemma trk_ipsr : trk (dask (g_ipsr (Some D))). Proof. one. Qed.
  Ltac tgo := repeat (cbv beta iota; lazymatch goal with
   | |- trk (dbind _ _) => apply trk_bind; [|intros ?]
   | |- trk (dret _) => apply trk_still; reflexivity
   | |- trk (dfail _) => apply trk_still; reflexivity
   | |- trk (dlift _) => apply trk_still; reflexivity
   | |- trk (dattr _) => apply trk_still; reflexivity
   | |- trk (dhasattr _) => apply trk_still; reflexivity
   | |- trk (dsetattr _) => apply trk_still; reflexivity
   | |- trk dsize => apply trk_still; reflexivity
   | |- trk (dread _ _) => apply trk_read
   | |- trk (dwrite _ _ _) => apply trk_write
   | |- trk (dload _ _ _) => apply trk_load
   | |- trk (dstore _ _ _ _) => apply trk_store
   | |- trk (drget _ _) => apply trk_rget
   | |- trk (drset _ _ _) => apply trk_rset
   | |- trk (dfget _ _) => apply trk_fget
   | |- trk (dfset _ _ _) => apply trk_fset
   | |- trk (dask (g_pc_for_instr _)) => apply trk_pc4
   | |- trk (dask (g_is_privileged _)) => apply trk_priv
   | |- trk (dask (g_ipsr _)) => apply trk_ipsr
   | H : context [dpc_next] |- trk (dpc_next _) => apply H
   | H : context [dset_flags] |- trk (dset_flags _ _ _ _) => apply H
   | H : context [dstore_loop] |- trk (dstore_loop _ _ _ _) => apply H
   | H : context [dload_loop] |- trk (dload_loop _ _ _ _) => apply H
   | |- trk ?x => split_head x
   end).
  Lemma trk_eval : forall py k, trk (deval D py k).
  Proof.
    assert (N : trk (dpc_next D)) by (unfold dpc_next, dpc_add; tgo).
    assert (F : forall x c o, trk (dset_flags D x c o)) by (intros x c o; unfold dset_flags; cbv zeta; tgo).
    assert (LS : forall py l a, trk (dstore_loop D py l a)) by (intros py l; induction l as [|k l IH]; intros a; cbn [dstore_loop]; unfold dlisted; tgo).
    assert (LL : forall py l a, trk (dload_loop D py l a)) by (intros py l; induction l as [|k l IH]; intros a; cbn [dload_loop]; unfold dlisted; tgo).
    intros py k. destruct k; cbn [deval];
    unfold deval_Instruction, deval_AddSub, deval_BitOp, deval_BitClear, deval_ShiftOp, deval_ReverseSubtract, deval_Multiply, deval_AddressToRegister,
      deval_Extend, deval_ByteReverse, deval_Move, deval_ShiftedMoveNegate, deval_Compare, deval_Test, deval_Branch, deval_Load, deval_Store,
      deval_LoadLiteral, deval_Push, deval_Pop, deval_LoadMultiple, deval_StoreMultiple, deval_ChangeProcessorState, deval_MoveFromSpecial,
      deval_MoveToSpecial, dimm_or_m, dadd_shared, dput_imm, daddress_of, dload_pc, dlisted, dlist_bytes, dwreg, dmrs_xpsr, dmrs_sp, dmrs_mask, dmrs_bit, drreg,
      dset_slice, dsysm_is, dsysm_bit, dcondition_expr, dflag_is, dnv_equal, dnv_differ, dand_then, dor_else; cbn [dict_get String.eqb Ascii.eqb Bool.eqb CORE_REGISTER];
    tgo.
  Qed.
End Calls.

Lemma recording_mimics : forall S (d : delegate S), mimics (fun x y => fst x = y) (recording d) d.
Proof.
  intros S d [s l] s' E. cbn [fst] in E. subst s'.
  split; [|split; [|split]]; intros; unfold alike, recording; cbn [del_read_register del_write_register del_read_memory del_write_memory].
  - destruct (del_read_register d k s); split; reflexivity.
  - destruct (del_write_register d k v s); split; reflexivity.
  - destruct (del_read_memory d a n s); split; reflexivity.
  - destruct (del_write_memory d a v n s); split; reflexivity.
Qed.

(*@doc C99: whatever the delegate does, an instruction is a list of calls: writing them down changes
nothing, the delegate ends as these calls leave it, and if one of them raises an exception it is the
last one and its exception is the one that comes out. @*)
Lemma C99_calls_proof : forall S (d : delegate S) py s i, exists l i' r,
  dexecute d py s i = (mkdst (replay d l s) i', r) /\
  dexecute (recording d) py (s, []) i = (mkdst (replay d l s, l) i', r) /\
  forall l1 c l2 e, l = l1 ++ c :: l2 -> refused d c (replay d l1 s) = Some e -> l2 = [] /\ r = Err e.
Proof.
  intros S d py s i. destruct (C99_alike_proof _ _ _ _ _ (recording_mimics S d) py (s, []) s eq_refl) as [A _]. specialize (A i). cbv zeta in A.
  pose proof (trk_eval d s py (i_klass i) [] i) as T. unfold dexecute in *. change (replay d [] s) with s in T.
  destruct (deval (recording d) py (i_klass i) (mkdst (s, []) i)) as [[[t l] i'] r].
  destruct (deval d py (i_klass i) (mkdst s i)) as [[t2 i2] r2]. cbn [fst snd d_self d_state] in *. destruct A as (-> & -> & ->).
  destruct T as (E & T). { intros l1 c l2 X. destruct l1; discriminate X. } cbn [fst snd] in *. subst t2. exists l, i2, r2.
  split; [reflexivity|]. split; [reflexivity|]. intros l1 c l2 e E F. destruct T as [C|(l' & c' & e' & E' & C & G & ->)].
  - rewrite (C l1 c l2 E) in F. discriminate F.
  - destruct l2 as [|x l2 _] using rev_ind.
    + rewrite E' in E. apply app_inj_tail in E. destruct E as [<- <-]. rewrite G in F. injection F as <-. split; reflexivity.
    + exfalso. rewrite E' in E. rewrite app_comm_cons, app_assoc in E. apply app_inj_tail in E. destruct E as [E _]. rewrite (C l1 c l2 E) in F. discriminate F.
Qed.
(*@ex
Example C99_calls_ex : let d := mkdelegate (fun _ s => (s + 1, Ok (VInt s))) (fun _ _ s => (s + 1, if s =? 2 then Err ValueError else Ok tt))
    (fun _ _ s => (s, Ok (VInt 0))) (fun _ _ _ s => (s, Ok tt)) in
  dexecute d Py3 0 ex_ands = (mkdst 3 ex_ands, Err ValueError) /\
  dexecute (recording d) Py3 (0, []) ex_ands = (mkdst (3, [DReadReg (Some 0); DReadReg (Some 1); DWriteReg (Some 0) 0]) ex_ands, Err ValueError).
Proof. split; vm_compute; reflexivity. Qed.
@*)

(** ** The order of the calls *)
Definition put (im : option bs) (sf : option setflags) (a : attrs) : attrs :=
  mkattrs (a_d a) (a_n a) (a_m a) (a_t a) im sf (a_use_carry a) (a_sub a) (a_negate a) (a_op
a) (a_type a) (a_shift_t a) (a_shift_n a) (a_rotation a) (a_width a) (a_signed a) (a_with_link a) (a_cond a)
(a_pc_delta a) (a_memsize a) (a_index a) (a_add a) (a_wback a) (a_registers a) (a_enable a) (a_affectPri a)
(a_affectFault a) (a_SYSm a).

Section Script.
  Context {S : Type} (d : delegate S) (a0 : attrs) (E : list access -> Prop).
  Let D := recording d.
  (** [wp m Q sf l]: started with the calls [l], attributes [a0] except for imm32 and setflags [sf],
      [m] ends with [Q], or raises with the calls in [E]. *)
  Definition wp {A} (m : dcomp (S * list dcall) A) (Q : A -> option setflags -> list access -> Prop) (sf : option setflags) (l : list access) : Prop :=
    forall s l0 i im, i_attrs i = put im sf a0 -> given im = given (a_imm32 a0) -> map access_of l0 = l ->
    let x := m (mkdst (s, l0) i) in
    exists im' sf', i_attrs (d_self (fst x)) = put im' sf' a0 /\ given im' = given (a_imm32 a0) /\
      match snd x with Ok a => Q a sf' (map access_of (snd (d_state (fst x)))) | Err _ => E (map access_of (snd (d_state (fst x)))) end.

  Lemma wp_bind : forall A B (m : dcomp _ A) (f : A -> dcomp _ B) (Q : _ -> option setflags -> list access -> Prop) sf l,
    wp m (fun a => wp (f a) Q) sf l -> wp (dbind m f) Q sf l.
  Proof.
    intros A B m f Q sf l H s l0 i im Ha Hi Hl. specialize (H s l0 i im Ha Hi Hl). cbv zeta in *. unfold dbind.
    destruct (m (mkdst (s, l0) i)) as [[[s' l'] i'] r]. cbn [fst snd d_self d_state] in H. destruct H as (im' & sf' & Ha' & Hi' & H).
    destruct r as [a|e].
    - exact (H s' l' i' im' Ha' Hi' eq_refl).
    - exists im', sf'. cbn [fst snd d_self d_state]. repeat split; assumption.
  Qed.
  Lemma wp_ret : forall A (a : A) (Q : _ -> option setflags -> list access -> Prop) sf l, Q a sf l -> wp (dret a) Q sf l.
  Proof. intros A a Q sf l H s l0 i im Ha Hi <-. exists im, sf. repeat split; assumption. Qed.
  Lemma wp_fail : forall A e (Q : A -> option setflags -> list access -> Prop) sf l, E l -> wp (dfail e) Q sf l.
  Proof. intros A e Q sf l H s l0 i im Ha Hi <-. exists im, sf. repeat split; assumption. Qed.
  Lemma wp_lift : forall A (r : res A) (Q : _ -> option setflags -> list access -> Prop) sf l, E l -> (forall a, r = Ok a -> Q a sf l) -> wp (dlift r) Q sf l.
  Proof. intros A r Q sf l HE H s l0 i im Ha Hi <-. exists im, sf. split; [exact Ha|]. split; [exact Hi|]. unfold dlift. cbn [fst snd d_state]. destruct r; auto. Qed.
  Lemma wp_attr : forall A (f : attrs -> option A) (Q : _ -> option setflags -> list access -> Prop) sf l, (forall im sf, f (put im sf a0) = f a0) ->
    (f a0 = None -> E l) -> (forall v, f a0 = Some v -> Q v sf l) -> wp (dattr f) Q sf l.
  Proof.
    intros A f Q sf l P HE H s l0 i im Ha Hi <-. exists im, sf. split; [exact Ha|]. split; [exact Hi|]. unfold dattr. cbn [fst snd d_state d_self].
    rewrite Ha, P. destruct (f a0); auto.
  Qed.
  Lemma wp_imm : forall (Q : _ -> option setflags -> list access -> Prop) sf l, (given (a_imm32 a0) = false -> E l) -> (given (a_imm32 a0) = true -> forall v, Q v sf l) -> wp (dattr a_imm32) Q sf l.
  Proof.
    intros Q sf l HE H s l0 i im Ha Hi <-. exists im, sf. split; [exact Ha|]. split; [exact Hi|]. unfold dattr. cbn [fst snd d_state d_self].
    rewrite Ha. cbn [put a_imm32]. destruct im; symmetry in Hi; auto.
  Qed.
  Lemma wp_flags : forall (Q : _ -> option setflags -> list access -> Prop) sf l, (sf = None -> E l) -> (forall v, sf = Some v -> Q v sf l) -> wp (dattr a_setflags) Q sf l.
  Proof.
    intros Q sf l HE H s l0 i im Ha Hi <-. exists im, sf. split; [exact Ha|]. split; [exact Hi|]. unfold dattr. cbn [fst snd d_state d_self].
    rewrite Ha. cbn [put a_setflags]. destruct sf; auto.
  Qed.
  Lemma wp_hasattr : forall A (f : attrs -> option A) (Q : _ -> option setflags -> list access -> Prop) sf l, (forall im sf, f (put im sf a0) = f a0) -> Q (given (f a0)) sf l -> wp (dhasattr f) Q sf l.
  Proof.
    intros A f Q sf l P H s l0 i im Ha Hi <-. exists im, sf. split; [exact Ha|]. split; [exact Hi|]. unfold dhasattr. cbn [fst snd d_state d_self].
    rewrite Ha, P. exact H.
  Qed.
  Lemma wp_hasimm : forall (Q : _ -> option setflags -> list access -> Prop) sf l, Q (given (a_imm32 a0)) sf l -> wp (dhasattr a_imm32) Q sf l.
  Proof.
    intros Q sf l H s l0 i im Ha Hi <-. exists im, sf. split; [exact Ha|]. split; [exact Hi|]. unfold dhasattr. cbn [fst snd d_state d_self].
    rewrite Ha. cbn [put a_imm32]. change (match im with Some _ => true | None => false end) with (given im). rewrite Hi. exact H.
  Qed.
  Lemma wp_setimm : forall v (Q : _ -> option setflags -> list access -> Prop) sf l, given (a_imm32 a0) = true -> Q tt sf l -> wp (dsetattr (with_imm32 v)) Q sf l.
  Proof.
    intros v Q sf l G H s l0 i im Ha Hi <-. exists (Some v), sf. unfold dsetattr. cbn [fst snd d_state d_self set_attrs i_attrs]. rewrite Ha.
    split; [reflexivity|]. split; [symmetry; exact G|exact H].
  Qed.
  Lemma wp_setflags : forall v (Q : _ -> option setflags -> list access -> Prop) sf l, Q tt (Some v) l -> wp (dsetattr (with_setflags v)) Q sf l.
  Proof.
    intros v Q sf l H s l0 i im Ha Hi <-. exists im, (Some v). unfold dsetattr. cbn [fst snd d_state d_self set_attrs i_attrs]. rewrite Ha.
    split; [reflexivity|]. split; [exact Hi|exact H].
  Qed.
  Lemma wp_size : forall (Q : _ -> option setflags -> list access -> Prop) sf l, (forall n, Q n sf l) -> wp dsize Q sf l.
  Proof. intros Q sf l H s l0 i im Ha Hi <-. exists im, sf. repeat split; try assumption. apply H. Qed.
  Lemma wp_ask : forall A (f : S * list dcall -> (S * list dcall) * res A) k (Q : _ -> option setflags -> list access -> Prop) sf l,
    (forall s l0, map access_of (snd (fst (f (s, l0)))) = map access_of l0 ++ [k]) -> E (l ++ [k]) -> (forall v, Q v sf (l ++ [k])) -> wp (dask f) Q sf l.
  Proof.
    intros A f k Q sf l F HE H s l0 i im Ha Hi <-. exists im, sf. unfold dask. cbn [d_state d_self]. specialize (F s l0). destruct (f (s, l0)) as [[s' l'] r].
    cbn [fst snd d_state d_self] in *. split; [exact Ha|]. split; [exact Hi|]. rewrite F. destruct r; auto.
  Qed.
  Lemma log_read : forall r s l0, map access_of (snd (fst (g_read_register (Some D) r (s, l0)))) = map access_of l0 ++ [RReg (register_name_to_index r)].
  Proof.
    intros r s l0. unfold g_read_register, D, recording. cbn [del_read_register]. destruct (del_read_register d _ s). cbn [fst snd]. apply map_app.
  Qed.
  Lemma log_load : forall a n s l0, map access_of (snd (fst (g_read_memory (Some D) a n (s, l0)))) = map access_of l0 ++ [RMem n].
  Proof. intros a n s l0. unfold g_read_memory, D, recording. cbn [del_read_memory]. destruct (del_read_memory d _ _ s). cbn [fst snd]. apply map_app. Qed.
  Lemma log_write : forall r v s l0, map access_of (snd (fst (g_write_register (Some D) r v (s, l0)))) = map access_of l0 ++ [WReg (register_name_to_index r)].
  Proof. intros r v s l0. unfold g_write_register, D, recording. cbn [del_write_register]. destruct (del_write_register d _ _ s). cbn [fst snd]. apply map_app. Qed.
  Lemma log_store : forall a v n s l0, map access_of (snd (fst (g_write_memory (Some D) a v n (s, l0)))) = map access_of l0 ++ [WMem n].
  Proof. intros a v n s l0. unfold g_write_memory, D, recording. cbn [del_write_memory]. destruct (del_write_memory d _ _ _ s). cbn [fst snd]. apply map_app. Qed.
  Lemma log_use : forall A x (f : bs -> res A), snd (fst (g_use (S := S * list dcall) x f)) = snd (fst x).
  Proof. intros A [y r] f. reflexivity. Qed.
  Lemma wp_read : forall r (Q : _ -> option setflags -> list access -> Prop) sf l, E (l ++ [RReg (register_name_to_index r)]) -> (forall v, Q v sf (l ++ [RReg (register_name_to_index r)])) -> wp (dread D r) Q sf l.
  Proof. intros r Q sf l. apply wp_ask. intros s l0. rewrite log_use. apply log_read. Qed.
  Lemma wp_write : forall r w (Q : _ -> option setflags -> list access -> Prop) sf l, E (l ++ [WReg (register_name_to_index r)]) -> (forall v, Q v sf (l ++ [WReg (register_name_to_index r)])) -> wp (dwrite D r w) Q sf l.
  Proof. intros r w Q sf l. apply wp_ask. intros s l0. apply log_write. Qed.
  Lemma wp_load : forall a n (Q : _ -> option setflags -> list access -> Prop) sf l, E (l ++ [RMem n]) -> (forall v, Q v sf (l ++ [RMem n])) -> wp (dload D a n) Q sf l.
  Proof. intros a n Q sf l. apply wp_ask. intros s l0. rewrite log_use. apply log_load. Qed.
  Lemma wp_store : forall a w n (Q : _ -> option setflags -> list access -> Prop) sf l, E (l ++ [WMem n]) -> (forall v, Q v sf (l ++ [WMem n])) -> wp (dstore D a w n) Q sf l.
  Proof. intros a w n Q sf l. apply wp_ask. intros s l0. apply log_store. Qed.
  Lemma wp_fget : forall f (Q : _ -> option setflags -> list access -> Prop) sf l, E (l ++ [RReg (Some 16)]) -> (forall v, Q v sf (l ++ [RReg (Some 16)])) -> wp (dfget D f) Q sf l.
  Proof. intros f Q sf l. apply wp_ask. intros s l0. unfold g_apsr_get. rewrite log_use. apply (log_read (RName "xpsr")). Qed.
  Lemma wp_pc4 : forall (Q : _ -> option setflags -> list access -> Prop) sf l, E (l ++ [RReg (Some 15)]) -> (forall v, Q v sf (l ++ [RReg (Some 15)])) -> wp (dask (g_pc_for_instr (Some D))) Q sf l.
  Proof. intros Q sf l. apply wp_ask. intros s l0. unfold g_pc_for_instr. rewrite log_use. apply (log_read (RName "pc")). Qed.
  Lemma wp_priv : forall (Q : _ -> option setflags -> list access -> Prop) sf l, E (l ++ [RReg (Some (-4))]) -> (forall v, Q v sf (l ++ [RReg (Some (-4))])) -> wp (dask (g_is_privileged (Some D))) Q sf l.
  Proof. intros Q sf l. apply wp_ask. intros s l0. unfold g_is_privileged. rewrite log_use. apply (log_read (RName "control")). Qed.
  Lemma wp_ipsr : forall (Q : _ -> option setflags -> list access -> Prop) sf l, E (l ++ [RReg (Some 16)]) -> (forall v, Q v sf (l ++ [RReg (Some 16)])) -> wp (dask (g_ipsr (Some D))) Q sf l.
  Proof. intros Q sf l. apply wp_ask. intros s l0. unfold g_ipsr. rewrite log_use. apply (log_read (RName "xpsr")). Qed.
  (** Accesses that may be refused before there is a call *)
  Lemma wp_rget : forall k (Q : _ -> option setflags -> list access -> Prop) sf l, E l -> E (l ++ [RReg (Some k)]) -> (forall v, Q v sf (l ++ [RReg (Some k)])) -> wp (drget D k) Q sf l.
  Proof.
    intros k Q sf l HL HE H s l0 i im Ha Hi <-. exists im, sf. unfold drget, dask, g_ri_get. cbv zeta. cbn [d_state d_self]. rewrite !Z.add_0_l.
    destruct (15 <? k).
    - cbn [g_use bind fst snd d_state d_self]. repeat split; assumption.
    - pose proof (log_read (RIndex k) s l0) as F. destruct (g_read_register (Some D) (RIndex k) (s, l0)) as [[s' l'] r]. cbn [g_use fst snd d_state d_self register_name_to_index] in *.
      split; [exact Ha|]. split; [exact Hi|]. rewrite F. destruct r as [[b|]|e]; cbn [bind]; auto.
  Qed.
  Lemma wp_rset : forall k w (Q : _ -> option setflags -> list access -> Prop) sf l, E l -> E (l ++ [WReg (Some k)]) -> (forall v, Q v sf (l ++ [WReg (Some k)])) -> wp (drset D k w) Q sf l.
  Proof.
    intros k w Q sf l HL HE H s l0 i im Ha Hi <-. exists im, sf. unfold drset, dask, g_ri_set. cbv zeta. cbn [d_state d_self]. rewrite !Z.add_0_l.
    destruct (15 <? k).
    - cbn [fst snd d_state d_self]. repeat split; assumption.
    - pose proof (log_write (RIndex k) (NBits w) s l0) as F. destruct (g_write_register (Some D) (RIndex k) _ (s, l0)) as [[s' l'] r]. cbn [fst snd d_state d_self register_name_to_index] in *.
      split; [exact Ha|]. split; [exact Hi|]. rewrite F. destruct r as [u|e]; auto.
  Qed.
  Lemma wp_fset : forall f w (Q : _ -> option setflags -> list access -> Prop) sf l, E (l ++ [RReg (Some 16)]) -> E (l ++ [RReg (Some 16); WReg (Some 16)]) -> (forall v, Q v sf (l ++ [RReg (Some 16); WReg (Some 16)])) ->
    wp (dfset D f w) Q sf l.
  Proof.
    intros f w Q sf l HL HE H s l0 i im Ha Hi <-. exists im, sf. unfold dfset, dask, g_apsr_set. cbn [d_state d_self].
    pose proof (log_read (RName "xpsr") s l0) as F. destruct (g_read_register (Some D) (RName "xpsr") (s, l0)) as [[s' l'] r]. cbn [fst snd] in F.
    change (register_name_to_index (RName "xpsr")) with (Some 16) in F.
    match goal with |- context [match ?x with Ok _ => _ | Err _ => _ end] => destruct x as [v'|e] end.
    - pose proof (log_write (RName "xpsr") (NBits v') s' l') as G. destruct (g_write_register (Some D) (RName "xpsr") _ (s', l')) as [[s'' l''] u].
      cbn [fst snd d_state d_self] in *. change (register_name_to_index (RName "xpsr")) with (Some 16) in G.
      split; [exact Ha|]. split; [exact Hi|]. rewrite G, F, <- app_assoc. destruct u; auto.
    - cbn [fst snd d_state d_self]. rewrite F. repeat split; assumption.
  Qed.
End Script.

Definition some_begins (ks : list (list access)) (l : list access) : Prop := exists k, In k ks /\ begins l k.
Lemma sb_here : forall l k ks, begins l k -> some_begins (k :: ks) l.
Proof. intros l k ks H. exists k. split; [left; reflexivity|exact H]. Qed.
Lemma sb_there : forall l k ks, some_begins ks l -> some_begins (k :: ks) l.
Proof. intros l k ks (k' & I & H). exists k'. split; [right; exact I|exact H]. Qed.
Lemma sb_nil : forall k ks, some_begins (k :: ks) [].
Proof. intros k ks. apply sb_here. exists k. reflexivity. Qed.
Lemma begins_app : forall A (l m : list A), begins l (l ++ m).
Proof. intros A l m. exists m. reflexivity. Qed.
Lemma begins_app2 : forall A (l m m' : list A), begins m m' -> begins (l ++ m) (l ++ m').
Proof. intros A l m m' (x & ->). exists x. apply app_assoc. Qed.
Lemma begins_nil : forall A (k : list A), begins [] k.
Proof. intros A k. exists k. reflexivity. Qed.
Lemma begins_cons : forall A (x : A) l k, begins l k -> begins (x :: l) (x :: k).
Proof. intros A x l k (m & ->). exists m. reflexivity. Qed.
Lemma begins_more : forall A (p k m : list A), begins p k -> begins p (k ++ m).
Proof. intros A p k m (x & ->). exists (x ++ m). symmetry. apply app_assoc. Qed.
Lemma decides_cons : forall k, exists x l, decides k = x :: l.
Proof. intros k. unfold decides, either. repeat match goal with |- context [if ?b then _ else _] => destruct b end; eexists; eexists; reflexivity. Qed.

Section Loops.
  Context {S : Type} (d : delegate S) (a0 : attrs) (E : list access -> Prop).
  Lemma wp_ext : forall A (m m' : dcomp (S * list dcall) A), (forall x, m x = m' x) -> forall Q sf l, wp a0 E m Q sf l -> wp a0 E m' Q sf l.
  Proof. intros A m m' H Q sf l W s l0 i im Ha Hi Hl. rewrite <- H. exact (W s l0 i im Ha Hi Hl). Qed.
  Lemma truthy_listed : forall py b k x, 0 <= k -> bs_getitem b (KInt k) = Ok x -> bs_truthy py x = is_listed py (bv b) k.
  Proof.
    intros py b k x K H. cbn [bs_getitem] in H. unfold bs_get_bit in H. replace (k <? 0) with false in H by lia.
    unfold py_shr in H. replace (k <? 0) with false in H by lia. cbn [bind] in H.
    assert (L : Z.land (Z.shiftr (bv b) k) 1 = if Z.testbit (bv b) k then 1 else 0).
    { change 1 with (Z.ones 1) at 1. rewrite Z.land_ones by lia. change (2 ^ 1) with 2. rewrite <- Z.bit0_mod, Z.shiftr_spec by lia.
      rewrite Z.add_0_l. destruct (Z.testbit (bv b) k); reflexivity. }
    rewrite L in H. destruct (Z.testbit (bv b) k) eqn:B; vm_compute in H; injection H as <-; destruct py; cbn [is_listed]; rewrite ?B; reflexivity.
  Qed.
  Lemma wp_listed : forall py k (Q : bool -> option setflags -> list access -> Prop) sf l, 0 <= k -> E l ->
    (forall b, a_registers a0 = Some b -> Q (is_listed py (bv b) k) sf l) -> wp (S := S) a0 E (dlisted py k) Q sf l.
  Proof.
    intros py k Q sf l K HE H. unfold dlisted. apply wp_bind, wp_attr; [reflexivity|intros _; exact HE|]. intros b Hb.
    apply wp_bind, wp_lift; [exact HE|]. intros x Hx. apply wp_ret. rewrite (truthy_listed py b k x K Hx). exact (H b Hb).
  Qed.
  Lemma wp_loop : forall (body : Z -> bs -> dcomp (S * list dcall) unit) (acc : Z -> list access) py,
    (forall k a (Q : unit -> option setflags -> list access -> Prop) sf l, (forall p, begins p (acc k) -> E (l ++ p)) -> Q tt sf (l ++ acc k) -> wp a0 E (body k a) Q sf l) ->
    forall (loop : list Z -> bs -> dcomp (S * list dcall) bs),
    (forall a, loop [] a = dret a) ->
    (forall k l a x, loop (k :: l) a x = dbind (dlisted py k) (fun b => if b then dbind (body k a) (fun _ => dbind (dlift (bs_add a (VInt 4))) (fun a' => loop l a')) else loop l a) x) ->
    forall ks, (forall k, In k ks -> 0 <= k) -> forall a (Q : bs -> option setflags -> list access -> Prop) sf l,
    (forall b, a_registers a0 = Some b -> forall p, begins p (flat_map acc (filter (is_listed py (bv b)) ks)) -> E (l ++ p)) -> E l ->
    (forall a' b, a_registers a0 = Some b \/ ks = [] -> Q a' sf (l ++ flat_map acc (filter (is_listed py (bv b)) ks))) ->
    wp a0 E (loop ks a) Q sf l.
  Proof.
    intros body acc py HB loop L0 L1 ks. induction ks as [|k ks IH]; intros NN a Q sf l HE HL HQ.
    - rewrite L0. apply wp_ret. specialize (HQ a bit0 (or_intror eq_refl)). cbn in HQ. rewrite app_nil_r in HQ. exact HQ.
    - apply (wp_ext _ _ _ (fun x => eq_sym (L1 k ks a x))). apply wp_bind, wp_listed; [apply NN; left; reflexivity|exact HL|]. intros b Hb.
      specialize (HE b Hb). cbn [filter] in HE, HQ. destruct (is_listed py (bv b) k) eqn:LK.
      + cbn [flat_map] in HE. apply wp_bind, HB.
        { intros p P. apply HE. destruct P as [m ->]. exists (m ++ flat_map acc (filter (is_listed py (bv b)) ks)). apply eq_sym, app_assoc. }
        apply wp_bind, wp_lift. { apply HE, begins_app. }
        intros a' _. apply IH.
        * intros j J. apply NN. right. exact J.
        * intros b' Hb' p P. rewrite Hb in Hb'. injection Hb' as <-. rewrite <- app_assoc. apply HE, begins_app2, P.
        * apply HE, begins_app.
        * intros a'' b' [Hb'| -> ].
          -- rewrite Hb in Hb'. injection Hb' as <-. specialize (HQ a'' b (or_introl Hb)). rewrite LK in HQ. cbn [flat_map] in HQ. rewrite <- app_assoc. exact HQ.
          -- specialize (HQ a'' b (or_introl Hb)). rewrite LK in HQ. cbn [flat_map filter] in *. rewrite <- app_assoc. exact HQ.
      + apply IH.
        * intros j J. apply NN. right. exact J.
        * intros b' Hb' p P. rewrite Hb in Hb'. injection Hb' as <-. apply HE, P.
        * exact HL.
        * intros a'' b' H. specialize (HQ a'' b (or_introl Hb)). rewrite LK in HQ. destruct H as [Hb'| -> ]; [rewrite Hb in Hb'; injection Hb' as <-|]; exact HQ.
  Qed.
  Lemma range_nonneg : forall k, In k (py_range 15) -> 0 <= k.
  Proof. intros k H. change (In k [0; 1; 2; 3; 4; 5; 6; 7; 8; 9; 10; 11; 12; 13; 14]) in H. repeat (destruct H as [<-|H]; [lia|]). destruct H. Qed.
  Let D := recording d.
  Definition st_acc (k : Z) : list access := [RReg (Some k); WMem 32].
  Definition ld_acc (k : Z) : list access := [RMem 32; WReg (Some k)].
  Lemma wp_stores : forall py a (Q : bs -> option setflags -> list access -> Prop) sf l,
    (forall b, a_registers a0 = Some b -> forall p, begins p (flat_map st_acc (transferred py (bv b))) -> E (l ++ p)) -> E l ->
    (forall a' b, a_registers a0 = Some b -> Q a' sf (l ++ flat_map st_acc (transferred py (bv b)))) ->
    wp a0 E (dstore_loop D py (py_range 15) a) Q sf l.
  Proof.
    intros py a Q sf l HE HL HQ. apply (wp_loop (fun k a => dbind (drget D k) (fun v => dstore D a v 32)) st_acc py); try assumption.
    - intros k a' Q' sf' l' HE' HQ'. apply wp_bind, wp_rget.
      + rewrite <- (app_nil_r l'). apply HE', begins_nil.
      + apply HE'. exists [WMem 32]. reflexivity.
      + intros v. apply wp_store; rewrite <- app_assoc; [apply HE'; exists []; reflexivity|]. intros []. exact HQ'.
    - reflexivity.
    - intros k ks a' x. cbn [dstore_loop]. unfold dbind at 1. unfold dbind at 4. destruct (dlisted py k x) as [x' [[|]|e]]; try reflexivity.
      unfold dbind. destruct (drget D k x') as [x2 [v|e]]; reflexivity.
    - exact range_nonneg.
    - intros a' b [Hb|Hb]; [exact (HQ a' b Hb)|discriminate Hb].
  Qed.
  Lemma wp_loads : forall py a (Q : bs -> option setflags -> list access -> Prop) sf l,
    (forall b, a_registers a0 = Some b -> forall p, begins p (flat_map ld_acc (transferred py (bv b))) -> E (l ++ p)) -> E l ->
    (forall a' b, a_registers a0 = Some b -> Q a' sf (l ++ flat_map ld_acc (transferred py (bv b)))) ->
    wp a0 E (dload_loop D py (py_range 15) a) Q sf l.
  Proof.
    intros py a Q sf l HE HL HQ. apply (wp_loop (fun k a => dbind (dload D a 32) (fun v => drset D k v)) ld_acc py); try assumption.
    - intros k a' Q' sf' l' HE' HQ'. apply wp_bind, wp_load.
      + apply HE'. exists [WReg (Some k)]. reflexivity.
      + intros v. apply wp_rset; rewrite <- ?app_assoc; [apply HE'; exists [WReg (Some k)]; reflexivity|apply HE'; exists []; reflexivity|]. intros []. exact HQ'.
    - reflexivity.
    - intros k ks a' x. cbn [dload_loop]. unfold dbind at 1. unfold dbind at 4. destruct (dlisted py k x) as [x' [[|]|e]]; try reflexivity.
      unfold dbind. destruct (dload D a' 32 x') as [x2 [v|e]]; reflexivity.
    - exact range_nonneg.
    - intros a' b [Hb|Hb]; [exact (HQ a' b Hb)|discriminate Hb].
  Qed.
  Lemma wp_sysm : forall y lo hi text r (Q : bool -> option setflags -> list access -> Prop) sf l, a_SYSm a0 = Some y -> E l ->
    (let* x := bs_getitem y (KSlice (sl lo hi)) in eq_text x text) = Ok r -> Q r sf l -> wp (S := S) a0 E (dsysm_is lo hi text) Q sf l.
  Proof.
    intros y lo hi text r Q sf l Y HE H HQ. unfold dsysm_is. apply wp_bind, wp_attr; [reflexivity|intros _; exact HE|]. intros y' Y'. rewrite Y in Y'. injection Y' as <-.
    apply wp_bind, wp_lift; [exact HE|]. intros x X. rewrite X in H. cbn [bind] in H. apply wp_lift; [exact HE|]. intros b B. rewrite B in H. injection H as ->. exact HQ.
  Qed.
  Lemma wp_sysm_bit : forall y k text r (Q : bool -> option setflags -> list access -> Prop) sf l, a_SYSm a0 = Some y -> E l ->
    (let* x := bs_getitem y (KInt k) in eq_text x text) = Ok r -> Q r sf l -> wp (S := S) a0 E (dsysm_bit k text) Q sf l.
  Proof.
    intros y k text r Q sf l Y HE H HQ. unfold dsysm_bit. apply wp_bind, wp_attr; [reflexivity|intros _; exact HE|]. intros y' Y'. rewrite Y in Y'. injection Y' as <-.
    apply wp_bind, wp_lift; [exact HE|]. intros x X. rewrite X in H. cbn [bind] in H. apply wp_lift; [exact HE|]. intros b B. rewrite B in H. injection H as ->. exact HQ.
  Qed.
  Lemma clear_bit : forall b k x r, 0 <= k -> bs_getitem b (KInt k) = Ok x -> eq_text x "0" = Ok r -> r = negb (Z.testbit (bv b) k).
  Proof.
    intros b k x r K H H2. cbn [bs_getitem] in H. unfold bs_get_bit in H. replace (k <? 0) with false in H by lia.
    unfold py_shr in H. replace (k <? 0) with false in H by lia. cbn [bind] in H.
    assert (L : Z.land (Z.shiftr (bv b) k) 1 = if Z.testbit (bv b) k then 1 else 0).
    { change 1 with (Z.ones 1) at 1. rewrite Z.land_ones by lia. change (2 ^ 1) with 2. rewrite <- Z.bit0_mod, Z.shiftr_spec by lia.
      rewrite Z.add_0_l. destruct (Z.testbit (bv b) k); reflexivity. }
    rewrite L in H. destruct (Z.testbit (bv b) k) eqn:B; vm_compute in H; injection H as <-; vm_compute in H2; injection H2 as <-; reflexivity.
  Qed.
  Lemma wp_clear : forall b n (Q : bool -> option setflags -> list access -> Prop) sf l, a_registers a0 = Some b -> a_n a0 = Some n -> 0 <= n -> E l ->
    Q (negb (Z.testbit (bv b) n)) sf l ->
    wp (S := S) a0 E (dbind (dattr a_registers) (fun regs => dbind (dattr a_n) (fun n => dbind (dlift (bs_getitem regs (KInt n))) (fun b => dlift (eq_text b "0"))))) Q sf l.
  Proof.
    intros b n Q sf l B N Hn HE HQ. apply wp_bind, wp_attr; [reflexivity|intros _; exact HE|]. intros b' B'. rewrite B in B'. injection B' as <-.
    apply wp_bind, wp_attr; [reflexivity|intros _; exact HE|]. intros n' N'. rewrite N in N'. injection N' as <-.
    apply wp_bind, wp_lift; [exact HE|]. intros x X. apply wp_lift; [exact HE|]. intros r R. rewrite (clear_bit b n x r Hn X R). exact HQ.
  Qed.
End Loops.

Ltac tidy := cbn [app map fst snd scripts i_klass i_attrs a_d a_n a_m a_t a_imm32 a_setflags a_use_carry a_sub a_negate a_op a_type a_shift_t a_shift_n a_rotation a_width a_signed
  a_with_link a_cond a_pc_delta a_memsize a_index a_add a_wback a_registers a_enable a_affectPri a_affectFault a_SYSm rd wr_ when given is_on sized negb andb next_pc flag_writes flags_if
  addressing register_name_to_index branches].
Ltac known := repeat match goal with H : (_ =? 15) = _ |- _ => rewrite H; clear H end; tidy.
Ltac ends := known; repeat first [solve [apply sb_nil | apply sb_here; rewrite <- ?app_assoc; cbn [app]; repeat first [apply begins_nil | apply begins_app | apply begins_cons | apply begins_app2]] | apply sb_there].
Ltac done := known; rewrite <- ?app_assoc; cbn [app]; repeat first [solve [left; reflexivity] | right].
Lemma special_other : forall v, 24 <= v -> special_reads v = [[]].
Proof. intros v V. destruct v as [|p|p]; [lia| |lia]. do 5 (try reflexivity; destruct p as [p|p|]; try lia; try reflexivity). Qed.
Ltac sysm := lazymatch goal with
  | |- wp _ _ (dsysm_is _ _ _) _ _ _ => eapply wp_sysm; [reflexivity|ends|vm_compute; reflexivity|]
  | |- wp _ _ (dsysm_bit _ _) _ _ _ => eapply wp_sysm_bit; [reflexivity|ends|vm_compute; reflexivity|] end.
Ltac wgo := repeat (cbv beta iota zeta; lazymatch goal with
   | F : 0 <= ?v |- wp _ _ (dbind (dattr a_registers) (fun _ => dbind (dattr a_n) _)) _ _ _ =>
     eapply wp_clear; [reflexivity|reflexivity|exact F|ends|match goal with |- context [Z.testbit ?b v] => destruct (Z.testbit b v) end; cbn [negb]]
   | |- wp _ _ (dbind _ _) _ _ _ => apply wp_bind
   | |- wp _ _ (dsysm_is _ _ _) _ _ _ => sysm
   | |- wp _ _ (dsysm_bit _ _) _ _ _ => sysm
   | |- wp _ _ (dret _) _ _ _ => apply wp_ret
   | |- wp _ _ (dfail _) _ _ _ => apply wp_fail; ends
   | |- wp _ _ (dlift _) _ _ _ => apply wp_lift; [ends|intros ? _]
   | |- wp ?a _ (dattr a_imm32) _ _ _ => let o := eval cbn in (a_imm32 a) in try (is_var o; destruct o); (let H := fresh "H" in apply wp_imm; [tidy; intros H; try discriminate H; ends|tidy; intros H ?; try discriminate H; clear H])
   | |- wp _ _ (dattr a_setflags) _ _ _ => let H := fresh "H" in apply wp_flags; [intros H; try discriminate H; subst; ends|intros [| |] H; try discriminate H; try injection H as <-; subst]
   | |- wp _ _ (dattr ?f) _ _ _ => let H := fresh "H" in apply wp_attr; [reflexivity|tidy; intros H; try discriminate H; subst; ends|tidy; intros ? H; try discriminate H; try (injection H as <-); subst]
   | |- wp ?a _ (dhasattr a_imm32) _ _ _ => let o := eval cbn in (a_imm32 a) in try (is_var o; destruct o); apply wp_hasimm; tidy
   | |- wp ?a _ (dhasattr ?f) _ _ _ => let o := eval cbn in (f a) in try (is_var o; destruct o); (apply wp_hasattr; [reflexivity|tidy])
   | |- wp _ _ (dsetattr (with_imm32 _)) _ _ _ => apply wp_setimm; [reflexivity|]
   | |- wp _ _ (dsetattr (with_setflags _)) _ _ _ => apply wp_setflags
   | |- wp _ _ dsize _ _ _ => apply wp_size; intros ?
   | |- wp _ _ (dread _ (RName ?n)) _ _ _ => apply wp_read; [|intros ?]; change (register_name_to_index (RName n)) with (dict_get String.eqb n CORE_REGISTER); cbn [dict_get String.eqb Ascii.eqb Bool.eqb CORE_REGISTER]; [ends|]
   | |- wp _ _ (dwrite _ (RName ?n) _) _ _ _ => apply wp_write; [|intros ?]; change (register_name_to_index (RName n)) with (dict_get String.eqb n CORE_REGISTER); cbn [dict_get String.eqb Ascii.eqb Bool.eqb CORE_REGISTER]; [ends|]
   | |- wp _ _ (dread _ _) _ _ _ => apply wp_read; [ends|intros ?]; tidy
   | |- wp _ _ (dwrite _ _ _) _ _ _ => apply wp_write; [ends|intros ?]; tidy
   | |- wp _ _ (dload _ _ _) _ _ _ => apply wp_load; [ends|intros ?]
   | |- wp _ _ (dstore _ _ _ _) _ _ _ => apply wp_store; [ends|intros ?]
   | |- wp _ _ (drget _ _) _ _ _ => apply wp_rget; [ends|ends|intros ?]
   | |- wp _ _ (drset _ _ _) _ _ _ => apply wp_rset; [ends|ends|intros ?]
   | |- wp _ _ (dfget _ _) _ _ _ => apply wp_fget; [ends|intros ?]
   | |- wp _ _ (dfset _ _ _) _ _ _ => apply wp_fset; [ends|ends|intros ?]
   | |- wp _ _ (dask (g_pc_for_instr _)) _ _ _ => apply wp_pc4; [ends|intros ?]
   | |- wp _ _ (dask (g_is_privileged _)) _ _ _ => apply wp_priv; [ends|intros ?]
   | |- wp _ _ (dask (g_ipsr _)) _ _ _ => apply wp_ipsr; [ends|intros ?]
   | |- wp _ _ ?x _ _ _ => split_head x
   | |- In _ _ => solve [done]
   end).
Lemma wp_eval : forall S (d : delegate S) py i, formed i ->
  wp (i_attrs i) (some_begins (scripts py i)) (deval (recording d) py (i_klass i)) (fun _ _ l => In l (scripts py i)) (a_setflags (i_attrs i)) [].
Proof.
  intros S d py [mn w i32 ad k ops a] FM. destruct a as [xd xn xm xt xim xsf xuc xsub xneg xop xty xst xsn xrot xw xsg xwl xcond xpd xms xidx xadd xwb xregs xen xpri xflt xsys]. destruct k; cbn [i_klass i_attrs a_setflags deval];
  unfold deval_Instruction, deval_AddSub, deval_BitOp, deval_BitClear, deval_ShiftOp, deval_ReverseSubtract, deval_Multiply, deval_AddressToRegister,
      deval_Extend, deval_ByteReverse, deval_Move, deval_ShiftedMoveNegate, deval_Compare, deval_Test,  deval_Load, deval_Store,
      deval_LoadLiteral, deval_ChangeProcessorState, 
      deval_MoveToSpecial, dimm_or_m, dadd_shared, dput_imm, daddress_of, dpc_next, dpc_add, dset_flags, dload_pc, dlisted, dlist_bytes, dwreg, in_it_block;  cbn [dict_get String.eqb Ascii.eqb Bool.eqb CORE_REGISTER negb].
  all: try wgo.
  - (* Branch *)
    unfold deval_Branch. apply wp_bind, wp_attr; [reflexivity|tidy; intros ->; ends|tidy; intros k ->]. cbv beta iota. unfold dcondition_expr, dflag_is, dnv_equal, dnv_differ, dand_then, dor_else, dpc_next, dpc_add.
    apply wp_bind.
    repeat match goal with |- wp _ _ (if k =? ?n then _ else _) _ _ _ => let K := fresh "K" in destruct (k =? n) eqn:K;
      [apply Z.eqb_eq in K; subst k; let x := eval vm_compute in (decides n) in change (decides n) with x|] end.
    17: destruct (decides_cons k) as (x & l & ->); apply wp_fail; ends.
    all: wgo.
  - (* Push *)
    unfold deval_Push, dlist_bytes, dpc_next, dpc_add. wgo. unfold stores in *. cbn [regs_of i_attrs a_registers] in *.
    apply wp_stores; tidy.
    + intros b Hb p P. injection Hb as <-. apply sb_here. do 2 apply begins_cons. apply begins_more, P.
    + ends.
    + intros a' b Hb. injection Hb as <-. wgo.
  - (* Pop *)
    unfold deval_Pop, dlist_bytes, dload_pc, dpc_next, dpc_add. wgo. unfold loads, loads_pc in *. cbn [regs_of i_attrs a_registers] in *.
    apply wp_loads; tidy.
    + intros b Hb p P. injection Hb as <-. apply sb_here. do 3 apply begins_cons. apply begins_more, P.
    + ends.
    + intros a' b Hb. injection Hb as <-. apply wp_bind, wp_listed; [lia|ends|]. tidy. intros b Hb. injection Hb as <-. destruct (is_listed py _ 15); wgo.
  - (* LoadMultiple *)
    unfold deval_LoadMultiple, dlist_bytes, dload_pc, dpc_next, dpc_add. destruct xn as [n|]; [cbn [formed i_klass i_attrs a_n] in FM|]; wgo. unfold loads, loads_pc in *.
    apply wp_loads; tidy.
    + intros b Hb p P. subst xregs. cbn [regs_of i_attrs a_registers]. apply sb_here. apply begins_cons. apply begins_more, P.
    + ends.
    + intros a' b Hb. subst xregs. cbn [regs_of i_attrs a_registers]. apply wp_bind, wp_bind, wp_listed; [lia|ends|]. tidy. intros b' Hb. injection Hb as <-.
      destruct (is_listed py _ 15); wgo.
  - (* StoreMultiple *)
    unfold deval_StoreMultiple, dlist_bytes, dpc_next, dpc_add. wgo. unfold stores in *.
    apply wp_stores; tidy.
    + intros b Hb p P. subst xregs. cbn [regs_of i_attrs a_registers]. apply sb_here. apply begins_cons. apply begins_more, P.
    + ends.
    + intros a' b Hb. subst xregs. cbn [regs_of i_attrs a_registers]. wgo.
  - (* MoveFromSpecial *)
    unfold deval_MoveFromSpecial, dmrs_xpsr, dmrs_sp, dmrs_mask, dmrs_bit, drreg, dset_slice, dpc_next, dpc_add. destruct xsys as [y|].
    2: { apply wp_bind, wp_lift; [ends|]. intros r _. apply wp_bind. unfold dsysm_is at 1. apply wp_bind, wp_attr; [reflexivity|intros _; ends|intros v H; discriminate H]. }
    cbn [formed i_klass i_attrs a_SYSm] in FM. destruct FM as (v & -> & V).
    cbn [dict_get String.eqb Ascii.eqb Bool.eqb CORE_REGISTER].
    destruct (Z.ltb_spec v 24) as [W|W].
    + assert (C : v = 0 \/ v = 1 \/ v = 2 \/ v = 3 \/ v = 4 \/ v = 5 \/ v = 6 \/ v = 7 \/ v = 8 \/ v = 9 \/ v = 10 \/ v = 11 \/ v = 12 \/ v = 13 \/ v = 14 \/ v = 15 \/
        v = 16 \/ v = 17 \/ v = 18 \/ v = 19 \/ v = 20 \/ v = 21 \/ v = 22 \/ v = 23) by lia.
      clear V W. repeat (destruct C as [->|C]; [|]); try subst v; tidy;
      match goal with |- context [special_reads (bv (bits 8 ?n))] => let x := eval vm_compute in (special_reads n) in change (special_reads (bv (bits 8 n))) with x end; cbn [map app];
      wgo.
    + tidy. replace (bv (bits 8 v)) with v by (cbn [bits bv]; rewrite Z.mod_small by (change (2 ^ 8) with 256; lia); reflexivity).
      rewrite (special_other v W). cbn [map app].
      apply wp_bind, wp_lift; [ends|]. intros r _. apply wp_bind. eapply wp_sysm; [reflexivity|ends|apply no_group; [left; reflexivity|lia]|]. cbv iota.
      apply wp_bind, wp_bind. eapply wp_sysm; [reflexivity|ends|apply no_group; [right; left; reflexivity|lia]|]. cbv iota.
      apply wp_bind. eapply wp_sysm; [reflexivity|ends|apply no_group; [right; right; left; reflexivity|lia]|]. wgo.
Qed.

(*@doc C99: which registers and how much memory an instruction accesses, and in which order, is settled
before it runs, up to the flags a branch depends on and the privilege MRS depends on: over any
delegate an instruction that finishes has made exactly the calls of one of its scripts, and one that
raises has made the first calls of one. @*)
Lemma C99_script_proof : forall S (d : delegate S) py s i, formed i ->
  exists l i' r k, dexecute (recording d) py (s, []) i = (mkdst (replay d l s, l) i', r) /\ In k (scripts py i) /\
    match r with Ok _ => map access_of l = k | Err _ => begins (map access_of l) k end.
Proof.
  intros S d py s i F. destruct (C99_calls_proof S d py s i) as (l & i' & r & _ & E & _).
  pose proof (wp_eval S d py i F s [] i (a_imm32 (i_attrs i))) as W. unfold dexecute in *. rewrite E in W. cbv zeta in W.
  destruct W as (im & sf & _ & _ & W); [destruct (i_attrs i); reflexivity|reflexivity|reflexivity|]. cbn [fst snd d_state] in W.
  destruct r as [u|e].
  - exists l, i', (Ok u), (map access_of l). repeat split; assumption.
  - destruct W as (k & K & B). exists l, i', (Err e), k. repeat split; assumption.
Qed.
(*@ex
Example C99_script_ex : formed ex_ands /\
  scripts Py3 ex_ands = [[RReg (Some 0); RReg (Some 1); WReg (Some 0); RReg (Some 16); WReg (Some 16); RReg (Some 16); WReg (Some 16); RReg (Some 15); WReg (Some 15)]].
Proof. split; [exact I|vm_compute; reflexivity]. Qed.
@*)

(*@doc C99: the instructions decoders make are of the form asked for. @*)
Lemma C99_formed_proof : forall py i, from_bytes py i -> formed i.
Proof.
  intros py i B. destruct (decoded_shaped py i B) as (l & SH & A). unfold formed. rewrite A.
  destruct SH; try exact I.
  - match goal with H : gpr n |- _ => exact (proj1 H) end.
  - exists y. split; [reflexivity|]. unfold SpecIsa.special in *. lia.
Qed.
(*@ex
Example C99_formed_ex : let i := decode_bytes Py3 [239; 243; 16; 128] 0 in
  (match i with Ok i => a_SYSm (i_attrs i) | Err _ => None end) = Some (bits 8 16) /\ forall j, i = Ok j -> formed j.
Proof.
  split; [vm_compute; reflexivity|]. intros j J. apply (C99_formed Py3). exists [239; 243; 16; 128], 0. split; [|exact J].
  repeat constructor; discriminate.
Qed.
@*)
