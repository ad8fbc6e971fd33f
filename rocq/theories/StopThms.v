(** * Proofs about interrupted instructions *)
From Coq Require Import ZArith List Lia Bool String.
From Verif Require Import DelegateExecModel SpecBits SpecApi SpecExec SpecAny SpecStop ApiThms CpuFacts AnyThms.
Import ListNotations.
Local Open Scope list_scope.
Local Open Scope Z_scope.

(*@imports
From Coq Require Import ZArith List Bool String.
From Verif Require Import SpecIsa SpecWhole DelegateExecModel SpecBits SpecApi SpecCpu SpecExec SpecAny SpecStop StopThms.
Import ListNotations.
Local Open Scope list_scope.
Local Open Scope Z_scope.
@*)

Lemma replay_app : forall S (d : delegate S) l l' s, replay d (l ++ l') s = replay d l' (replay d l s).
Proof. intros S d l l' s. unfold replay. apply fold_left_app. Qed.

Section Cut.
  Context {S : Type} (d : delegate S) (e : exc) (N : nat) (s0 : S).
  Notation D1 := (recording d).
  Notation D2 := (stopping d e).
  (** The run that goes on and writes down its calls, and the one that stops. *)
  Definition good (x : S * list dcall) : Prop := fst x = replay d (snd x) s0.
  Definition more (x x' : S * list dcall) : Prop := good x' /\ exists l, snd x' = snd x ++ l.
  Definition both (x : S * list dcall) (y : nat * S) : Prop := good x /\ snd y = fst x /\ (fst y + List.length (snd x) = N)%nat.
  Definition cut (x : S * list dcall) (y : nat * S) : Prop := good x /\ (N < List.length (snd x))%nat /\ y = (O, replay d (firstn N (snd x)) s0).

  Lemma more_refl : forall x, good x -> more x x.
  Proof. intros x G. split; [exact G|]. exists []. symmetry. apply app_nil_r. Qed.
  Lemma more_trans : forall x y z, more x y -> more y z -> more x z.
  Proof. intros x y z [_ [l E]] [G [l' E']]. split; [exact G|]. exists (l ++ l'). now rewrite E', E, app_assoc. Qed.
  Lemma cut_more : forall x x' y, cut x y -> more x x' -> cut x' y.
  Proof.
    intros x x' y (_ & L & ->) [G [l E]]. split; [exact G|]. rewrite E. split; [rewrite app_length; lia|]. f_equal. f_equal.
    rewrite firstn_app. replace (N - List.length (snd x))%nat with O by lia. cbn [firstn]. now rewrite app_nil_r.
  Qed.

  (** Calls *)
  Definition grows {A} (x : S * list dcall) (z : (S * list dcall) * res A) : Prop := more x (fst z).
  Definition close {A} (z1 : (S * list dcall) * res A) (z2 : (nat * S) * res A) : Prop :=
    (snd z1 = snd z2 /\ both (fst z1) (fst z2)) \/ (snd z2 = Err e /\ cut (fst z1) (fst z2)).
  Lemma call : forall A c s l n (r : res A) s', both (s, l) (n, s) -> s' = repeated d c s ->
    grows (s, l) ((s', l ++ [c]), r) /\ close ((s', l ++ [c]), r) (match n with O => ((O, s), Err e) | Datatypes.S n' => ((n', s'), r) end).
  Proof.
    intros A c s l n r s' (G & _ & L) ->. unfold good in G. cbn [fst snd] in *.
    assert (G' : good (repeated d c s, l ++ [c])). { unfold good. cbn [fst snd]. rewrite replay_app, <- G. reflexivity. }
    split; [split; [exact G'|exists [c]; reflexivity]|]. destruct n as [|n'].
    - right. split; [reflexivity|]. split; [exact G'|]. cbn [fst snd]. rewrite app_length. cbn [List.length]. split; [lia|]. f_equal.
      rewrite firstn_app. replace (N - List.length l)%nat with O by lia. replace N with (List.length l) by lia. rewrite firstn_all. cbn [firstn]. now rewrite app_nil_r.
    - left. split; [reflexivity|]. split; [exact G'|]. cbn [fst snd]. split; [reflexivity|]. rewrite app_length. cbn [List.length]. lia.
  Qed.
  Lemma grows_call : forall A c s l (r : res A) s', good (s, l) -> s' = repeated d c s -> grows (s, l) ((s', l ++ [c]), r).
  Proof. intros A c s l r s' G ->. split; [|exists [c]; reflexivity]. unfold good in *. cbn [fst snd] in *. rewrite replay_app, <- G. reflexivity. Qed.

  (** What a use of the CPU model does to the two runs. *)
  Definition pair {A} (f1 : S * list dcall -> (S * list dcall) * res A) (f2 : nat * S -> (nat * S) * res A) : Prop :=
    (forall x, good x -> grows x (f1 x)) /\ forall x y, both x y -> close (f1 x) (f2 y).
  Lemma pair_map : forall A B (f1 : S * list dcall -> (S * list dcall) * res A) f2 (h : A -> res B), pair f1 f2 ->
    pair (fun x => let '(s, r) := f1 x in (s, let* v := r in h v)) (fun y => let '(s, r) := f2 y in (s, let* v := r in h v)).
  Proof.
    intros A B f1 f2 h [G C]. split.
    - intros x X. specialize (G x X). unfold grows in *. destruct (f1 x) as [s r]. exact G.
    - intros x y X. specialize (C x y X). unfold close in *. destruct (f1 x) as [s1 r1], (f2 y) as [s2 r2]. cbn [fst snd] in *.
      destruct C as [[-> C]|[-> C]]; [left; now split|right; now split].
  Qed.
  Lemma pair_use : forall A (f1 : S * list dcall -> (S * list dcall) * res (option bs)) f2 (h : bs -> res A), pair f1 f2 -> pair (fun x => g_use (f1 x) h) (fun y => g_use (f2 y) h).
  Proof. intros A f1 f2 h P. exact (pair_map _ _ f1 f2 (fun o => match o with Some b => h b | None => Err TypeError end) P). Qed.
  Lemma pair_same : forall A (r : res A), pair (fun x => (x, r)) (fun y => (y, r)).
  Proof. intros A r. split; [intros x G; now apply more_refl|]. intros x y B. left. now split. Qed.
  Ltac prim c := split;
    [intros [s l] G; cbn [recording del_read_register del_write_register del_read_memory del_write_memory] in *;
     pose proof (fun A r s' => grows_call A c s l r s' G) as X; cbn [repeated] in X
    |intros [s l] [n s'] B; pose proof B as [_ [E _]]; cbn [fst snd] in E; subst s'; cbn [recording stopping del_read_register del_write_register del_read_memory del_write_memory] in *;
     pose proof (fun A r s' E => proj2 (call A c s l n r s' B E)) as X; cbn [repeated] in X].
  Lemma pair_rr : forall k, pair (del_read_register D1 k) (del_read_register D2 k).
  Proof. intros k. prim (DReadReg k); destruct (del_read_register d k s) as [t r]; now apply X. Qed.
  Lemma pair_rw : forall k v, pair (del_write_register D1 k v) (del_write_register D2 k v).
  Proof. intros k v. prim (DWriteReg k v); destruct (del_write_register d k v s) as [t r]; now apply X. Qed.
  Lemma pair_mr : forall a n, pair (del_read_memory D1 a n) (del_read_memory D2 a n).
  Proof. intros a b. prim (DReadMem a b); destruct (del_read_memory d a b s) as [t r]; now apply X. Qed.
  Lemma pair_mw : forall a v n, pair (del_write_memory D1 a v n) (del_write_memory D2 a v n).
  Proof. intros a v b. prim (DWriteMem a v b); destruct (del_write_memory d a v b s) as [t r]; now apply X. Qed.
  Lemma pair_read : forall r, pair (g_read_register (Some D1) r) (g_read_register (Some D2) r).
  Proof. intros r. exact (pair_map _ _ _ _ (fun v => let* b := bs_init v None in Ok (Some b)) (pair_rr (register_name_to_index r))). Qed.
  Lemma pair_load : forall a n, pair (g_read_memory (Some D1) a n) (g_read_memory (Some D2) a n).
  Proof. intros a n. exact (pair_map _ _ _ _ (fun v => let* b := bs_init v (Some n) in Ok (Some b)) (pair_mr (num_val a) n)). Qed.
  Lemma pair_write : forall r v, pair (g_write_register (Some D1) r v) (g_write_register (Some D2) r v).
  Proof. intros r v. exact (pair_rw _ _). Qed.
  Lemma pair_store : forall a v n, pair (g_write_memory (Some D1) a v n) (g_write_memory (Some D2) a v n).
  Proof. intros a v n. exact (pair_mw _ _ _). Qed.
  Lemma pair_apsr : forall f v, pair (g_apsr_set (Some D1) f v) (g_apsr_set (Some D2) f v).
  Proof.
    intros f v. unfold g_apsr_set. destruct (pair_read (RName "xpsr")) as [G C]. split.
    - intros x X. specialize (G x X). unfold grows in *. destruct (g_read_register (Some D1) _ x) as [t r]. cbn [fst] in G.
      match goal with |- more _ (fst (match ?z with _ => _ end)) => destruct z as [b|y] end; [|exact G].
      eapply more_trans; [exact G|]. apply pair_write. exact (proj1 G).
    - intros x y B. specialize (C x y B). specialize (G x (proj1 B)). unfold grows, close in G, C.
      destruct (g_read_register (Some D1) _ x) as [t1 r1], (g_read_register (Some D2) _ y) as [t2 r2]. cbn [fst snd] in *. destruct C as [[-> C]|[-> C]].
      + match goal with |- close (match ?z with _ => _ end) _ => destruct z as [b|z'] end; [now apply pair_write|left; now split].
      + right. cbn [bind]. match goal with |- context [match ?z with Ok _ => _ | Err _ => (t1, _) end] => destruct z as [b|z'] end; cbn [fst snd].
        * split; [reflexivity|]. eapply cut_more; [exact C|]. apply pair_write. exact (proj1 C).
        * split; [reflexivity|]. exact C.
  Qed.

  (** Computations *)
  Definition runs {A} (m1 : dcomp (S * list dcall) A) (m2 : dcomp (nat * S) A) : Prop :=
    (forall x i, good x -> more x (d_state (fst (m1 (mkdst x i))))) /\
    forall x y i, both x y ->
      (snd (m1 (mkdst x i)) = snd (m2 (mkdst y i)) /\ d_self (fst (m1 (mkdst x i))) = d_self (fst (m2 (mkdst y i))) /\
       both (d_state (fst (m1 (mkdst x i)))) (d_state (fst (m2 (mkdst y i))))) \/
      (snd (m2 (mkdst y i)) = Err e /\ cut (d_state (fst (m1 (mkdst x i)))) (d_state (fst (m2 (mkdst y i))))).
  Lemma runs_bind : forall A B (m1 : dcomp (S * list dcall) A) m2 (f1 : A -> dcomp (S * list dcall) B) f2,
    runs m1 m2 -> (forall a, runs (f1 a) (f2 a)) -> runs (dbind m1 f1) (dbind m2 f2).
  Proof.
    intros A B m1 m2 f1 f2 [G H] F. split.
    - intros x i X. specialize (G x i X). unfold dbind. destruct (m1 (mkdst x i)) as [[t j] [a|y]]; cbn [fst d_state] in *; [|exact G].
      eapply more_trans; [exact G|]. apply F. exact (proj1 G).
    - intros x y i X. specialize (G x i (proj1 X)). specialize (H x y i X). unfold dbind.
      destruct (m1 (mkdst x i)) as [[t1 i1] r1], (m2 (mkdst y i)) as [[t2 i2] r2]. cbn [fst snd d_self d_state] in *.
      destruct H as [(-> & -> & H)|(-> & H)].
      + destruct r2 as [a|z]; [now apply F|left; repeat split; assumption || apply H].
      + right. destruct r1 as [a|z]; cbn [fst snd d_state]; [|now split]. split; [reflexivity|]. eapply cut_more; [exact H|]. apply F. exact (proj1 H).
  Qed.
  Lemma runs_still : forall A (g : insn -> insn * res A), runs (fun s => (mkdst (d_state s) (fst (g (d_self s))), snd (g (d_self s)))) (fun s => (mkdst (d_state s) (fst (g (d_self s))), snd (g (d_self s)))).
  Proof. intros A g. split; [intros x i X; now apply more_refl|]. intros x y i B. left. repeat split; apply B. Qed.
  Lemma runs_ext : forall A (m1 m1' : dcomp (S * list dcall) A) m2 m2', (forall x i, m1 (mkdst x i) = m1' (mkdst x i)) -> (forall y i, m2 (mkdst y i) = m2' (mkdst y i)) -> runs m1' m2' -> runs m1 m2.
  Proof. intros A m1 m1' m2 m2' E1 E2 [G H]. split; [intros x i; rewrite E1; apply G|]. intros x y i. rewrite E1, E2. apply H. Qed.
  Lemma runs_ask : forall A (f1 : S * list dcall -> (S * list dcall) * res A) f2, pair f1 f2 -> runs (dask f1) (dask f2).
  Proof.
    intros A f1 f2 [G C]. split.
    - intros x i X. specialize (G x X). unfold dask, grows in *. cbn [d_state]. destruct (f1 x). exact G.
    - intros x y i B. specialize (C x y B). unfold dask, close in *. cbn [d_state d_self]. destruct (f1 x) as [t1 r1], (f2 y) as [t2 r2]. cbn [fst snd d_state d_self] in *.
      destruct C as [[-> C]|[-> C]]; [left; repeat split; apply C|right; now split].
  Qed.
  Lemma runs_ret : forall A (a : A), runs (dret a) (dret a).
  Proof. intros A a. eapply runs_ext; [| |exact (runs_still A (fun i => (i, Ok a)))]; intros; reflexivity. Qed.
  Lemma runs_fail : forall A z, runs (@dfail _ A z) (@dfail _ A z).
  Proof. intros A z. eapply runs_ext; [| |exact (runs_still A (fun i => (i, Err z)))]; intros; reflexivity. Qed.
  Lemma runs_lift : forall A (r : res A), runs (dlift r) (dlift r).
  Proof. intros A r. eapply runs_ext; [| |exact (runs_still A (fun i => (i, r)))]; intros; reflexivity. Qed.
  Lemma runs_attr : forall A (f : attrs -> option A), runs (dattr f) (dattr f).
  Proof. intros A f. eapply runs_ext; [| |exact (runs_still A (fun i => (i, match f (i_attrs i) with Some a => Ok a | None => Err AttributeError end)))]; intros; reflexivity. Qed.
  Lemma runs_hasattr : forall A (f : attrs -> option A), runs (dhasattr f) (dhasattr f).
  Proof. intros A f. eapply runs_ext; [| |exact (runs_still bool (fun i => (i, Ok (match f (i_attrs i) with Some _ => true | None => false end))))]; intros; reflexivity. Qed.
  Lemma runs_setattr : forall f, runs (dsetattr f) (dsetattr f).
  Proof. intros f. eapply runs_ext; [| |exact (runs_still unit (fun i => (set_attrs f i, Ok tt)))]; intros; reflexivity. Qed.
  Lemma runs_size : runs dsize dsize.
  Proof. eapply runs_ext; [| |exact (runs_still Z (fun i => (i, Ok (i_size i))))]; intros; reflexivity. Qed.
  Ltac one := apply runs_ask; try apply pair_use; first [apply pair_read | apply pair_load | apply pair_write | apply pair_store].
  Lemma runs_read : forall r, runs (dread D1 r) (dread D2 r). Proof. intros r. one. Qed.
  Lemma runs_write : forall r v, runs (dwrite D1 r v) (dwrite D2 r v). Proof. intros r v. one. Qed.
  Lemma runs_load : forall a n, runs (dload D1 a n) (dload D2 a n). Proof. intros a n. one. Qed.
  Lemma runs_store : forall a v n, runs (dstore D1 a v n) (dstore D2 a v n). Proof. intros a v n. one. Qed.
  Lemma runs_rget : forall k, runs (drget D1 k) (drget D2 k).
  Proof. intros k. apply runs_ask, pair_use. unfold g_ri_get. cbv zeta. destruct (15 <? _); [apply pair_same|apply pair_read]. Qed.
  Lemma runs_rset : forall k v, runs (drset D1 k v) (drset D2 k v).
  Proof. intros k v. apply runs_ask. unfold g_ri_set. cbv zeta. destruct (15 <? _); [apply pair_same|apply pair_write]. Qed.
  Lemma runs_fget : forall f, runs (dfget D1 f) (dfget D2 f). Proof. intros f. one. Qed.
  Lemma runs_fset : forall f v, runs (dfset D1 f v) (dfset D2 f v). Proof. intros f v. apply runs_ask, pair_apsr. Qed.
  Lemma runs_pc4 : runs (dask (g_pc_for_instr (Some D1))) (dask (g_pc_for_instr (Some D2))). Proof. one. Qed.
  Lemma runs_priv : runs (dask (g_is_privileged (Some D1))) (dask (g_is_privileged (Some D2))). Proof. one. Qed.
  Lemma runs_ipsr : runs (dask (g_ipsr (Some D1))) (dask (g_ipsr (Some D2))). Proof. one. Qed.

  Ltac go := repeat (cbv beta iota; lazymatch goal with
   | |- runs (dbind _ _) _ => apply runs_bind; [|intros ?]
   | |- runs (dret _) _ => apply runs_ret
   | |- runs (dfail _) _ => apply runs_fail
   | |- runs (dlift _) _ => apply runs_lift
   | |- runs (dattr _) _ => apply runs_attr
   | |- runs (dhasattr _) _ => apply runs_hasattr
   | |- runs (dsetattr _) _ => apply runs_setattr
   | |- runs dsize _ => apply runs_size
   | |- runs (dread _ _) _ => apply runs_read
   | |- runs (dwrite _ _ _) _ => apply runs_write
   | |- runs (dload _ _ _) _ => apply runs_load
   | |- runs (dstore _ _ _ _) _ => apply runs_store
   | |- runs (drget _ _) _ => apply runs_rget
   | |- runs (drset _ _ _) _ => apply runs_rset
   | |- runs (dfget _ _) _ => apply runs_fget
   | |- runs (dfset _ _ _) _ => apply runs_fset
   | |- runs (dask (g_pc_for_instr _)) _ => apply runs_pc4
   | |- runs (dask (g_is_privileged _)) _ => apply runs_priv
   | |- runs (dask (g_ipsr _)) _ => apply runs_ipsr
   | H : context [dpc_next] |- runs (dpc_next _) _ => apply H
   | H : context [dset_flags] |- runs (dset_flags _ _ _ _) _ => apply H
   | H : context [dstore_loop] |- runs (dstore_loop _ _ _ _) _ => apply H
   | H : context [dload_loop] |- runs (dload_loop _ _ _ _) _ => apply H
   | |- runs ?x _ => split_head x
   end).
  Lemma runs_eval : forall py k, runs (deval D1 py k) (deval D2 py k).
  Proof.
    assert (NX : runs (dpc_next D1) (dpc_next D2)) by (unfold dpc_next, dpc_add; go).
    assert (F : forall x c o, runs (dset_flags D1 x c o) (dset_flags D2 x c o)) by (intros x c o; unfold dset_flags; cbv zeta; go).
    assert (LS : forall py l a, runs (dstore_loop D1 py l a) (dstore_loop D2 py l a)) by (intros py l; induction l as [|k l IH]; intros a; cbn [dstore_loop]; unfold dlisted; go).
    assert (LL : forall py l a, runs (dload_loop D1 py l a) (dload_loop D2 py l a)) by (intros py l; induction l as [|k l IH]; intros a; cbn [dload_loop]; unfold dlisted; go).
    intros py k. destruct k; cbn [deval];
    unfold deval_Instruction, deval_AddSub, deval_BitOp, deval_BitClear, deval_ShiftOp, deval_ReverseSubtract, deval_Multiply, deval_AddressToRegister,
      deval_Extend, deval_ByteReverse, deval_Move, deval_ShiftedMoveNegate, deval_Compare, deval_Test, deval_Branch, deval_Load, deval_Store,
      deval_LoadLiteral, deval_Push, deval_Pop, deval_LoadMultiple, deval_StoreMultiple, deval_ChangeProcessorState, deval_MoveFromSpecial,
      deval_MoveToSpecial, dimm_or_m, dadd_shared, dput_imm, daddress_of, dload_pc, dlisted, dlist_bytes, dwreg, dmrs_xpsr, dmrs_sp, dmrs_mask, dmrs_bit, drreg,
      dset_slice, dsysm_is, dsysm_bit, dcondition_expr, dflag_is, dnv_equal, dnv_differ, dand_then, dor_else; cbn [dict_get String.eqb Ascii.eqb Bool.eqb CORE_REGISTER];
    go.
  Qed.

  Lemma grows_list : forall py l x, good x -> more x (fst (fst (dcpu_execute D1 py x l))).
  Proof.
    intros py l. induction l as [|i l IH]; intros x G; cbn [dcpu_execute]; [now apply more_refl|]. pose proof (proj1 (runs_eval py (i_klass i)) x i G) as M. unfold dexecute.
    destruct (deval D1 py (i_klass i) (mkdst x i)) as [[t j] [u|z]]; cbn [fst snd d_state d_self] in *; [|exact M].
    specialize (IH t (proj1 M)). destruct (dcpu_execute D1 py t l) as [[t' l'] r']. cbn [fst snd] in *. eapply more_trans; eassumption.
  Qed.
  Lemma runs_list : forall py l x y, both x y -> let u := dcpu_execute D1 py x l in let v := dcpu_execute D2 py y l in
    (snd u = snd v /\ snd (fst u) = snd (fst v) /\ both (fst (fst u)) (fst (fst v))) \/ (snd v = Err e /\ cut (fst (fst u)) (fst (fst v))).
  Proof.
    intros py l. induction l as [|i l IH]; intros x y B; cbn [dcpu_execute]; cbv zeta; [left; repeat split; apply B|].
    pose proof (proj2 (runs_eval py (i_klass i)) x y i B) as H. unfold dexecute.
    destruct (deval D1 py (i_klass i) (mkdst x i)) as [[t1 i1] r1], (deval D2 py (i_klass i) (mkdst y i)) as [[t2 i2] r2]. cbn [fst snd d_state d_self] in *.
    destruct H as [(-> & -> & H)|(-> & H)].
    - destruct r2 as [u|z]; [|left; repeat split; apply H]. specialize (IH t1 t2 H). cbv zeta in IH.
      destruct (dcpu_execute D1 py t1 l) as [[u1 l1] r1], (dcpu_execute D2 py t2 l) as [[u2 l2] r2]. cbn [fst snd] in *.
      destruct IH as [(-> & -> & IH)|(-> & IH)]; [left; repeat split; apply IH|right; now split].
    - right. destruct r1 as [u|z]; [|now split]. pose proof (grows_list py l t1 (proj1 H)) as M.
      destruct (dcpu_execute D1 py t1 l) as [[u1 l1] r1]. cbn [fst snd] in *. split; [reflexivity|]. eapply cut_more; eassumption.
  Qed.
End Cut.

(*@doc C99: an instruction that is stopped after so many of its calls, by a delegate that then
raises an exception, or between two calls, leaves the delegate as these calls left it, and the
exception comes out; if it makes no more calls, it is as if nothing had happened. @*)
Lemma C99_stop_proof : forall S (d : delegate S) e py s i n,
  let '(t, r) := dexecute (recording d) py (s, []) i in let l := snd (d_state t) in
  let '(t', r') := dexecute (stopping d e) py (n, s) i in
  ((List.length l <= n)%nat -> t' = mkdst ((n - List.length l)%nat, replay d l s) (d_self t) /\ r' = r) /\
  ((n < List.length l)%nat -> d_state t' = (O, replay d (firstn n l) s) /\ r' = Err e).
Proof.
  intros S d e py s i n. unfold dexecute.
  destruct (runs_eval d e n s py (i_klass i)) as [_ H]. specialize (H (s, []) (n, s) i).
  destruct (deval (recording d) py (i_klass i) (mkdst (s, []) i)) as [[[t l] i1] r], (deval (stopping d e) py (i_klass i) (mkdst (n, s) i)) as [[[k t'] i2] r'].
  cbn [fst snd d_state d_self] in *. destruct H as [(-> & -> & G & E & L)|(-> & G & L & E)].
  - split; [reflexivity|]. split; [reflexivity|]. cbn [fst snd List.length]. lia.
  - unfold good in G. cbn [fst snd] in *. split; [|lia]. intros _. split; [|reflexivity]. f_equal. subst t'. rewrite G. f_equal. lia.
  - cbn [fst snd] in *. split; [lia|]. intros _. now split.
Qed.
(*@ex
Example C99_stop_ex : let f n := dexecute (stopping mock_delegate KeyError) Py3 (n, ex_state) ex_ands in
  snd (f 2%nat) = Err KeyError /\ reg (snd (d_state (fst (f 2%nat)))) 0 = reg ex_state 0 /\
  snd (f 3%nat) = Err KeyError /\ reg (snd (d_state (fst (f 3%nat)))) 0 = 1 /\ reg (snd (d_state (fst (f 3%nat)))) 15 = reg ex_state 15 /\
  snd (f 9%nat) = Ok tt /\ reg (snd (d_state (fst (f 9%nat)))) 15 = 36.
Proof. vm_compute. repeat split; reflexivity. Qed.
@*)
(*@doc C99: the same for a list of instructions: what is left is what the first so many calls of the uninterrupted run left. @*)
Lemma C99_stop_run_proof : forall S (d : delegate S) e py s is n,
  let '((t, l), is', r) := dcpu_execute (recording d) py (s, []) is in
  let '(t', is2, r') := dcpu_execute (stopping d e) py (n, s) is in
  ((List.length l <= n)%nat -> t' = ((n - List.length l)%nat, replay d l s) /\ is2 = is' /\ r' = r) /\
  ((n < List.length l)%nat -> t' = (O, replay d (firstn n l) s) /\ r' = Err e).
Proof.
  intros S d e py s is n. pose proof (runs_list d e n s py is (s, []) (n, s)) as H.
  destruct (dcpu_execute (recording d) py (s, []) is) as [[[t l] i1] r], (dcpu_execute (stopping d e) py (n, s) is) as [[[k t'] i2] r'].
  cbn [fst snd d_state d_self] in *. destruct H as [(-> & -> & G & E & L)|(-> & G & L & E)].
  - split; [reflexivity|]. split; [reflexivity|]. cbn [fst snd List.length]. lia.
  - unfold good in G. cbn [fst snd] in *. split; [|lia]. intros _. repeat split. f_equal; [lia|]. subst t'. exact G.
  - cbn [fst snd] in *. split; [lia|]. intros _. now split.
Qed.
(*@ex
Example C99_stop_run_ex : let f n := dcpu_execute (stopping mock_delegate KeyError) Py3 (n, ex_state) [ex_ands; ex_ands] in
  snd (f 9%nat) = Err KeyError /\ reg (snd (fst (fst (f 9%nat)))) 15 = 36 /\ snd (f 17%nat) = Err KeyError /\ reg (snd (fst (fst (f 17%nat)))) 15 = 36 /\
  snd (f 18%nat) = Ok tt /\ reg (snd (fst (fst (f 18%nat)))) 15 = 38.
Proof. vm_compute. repeat split; reflexivity. Qed.
@*)
