(** * Proofs: straight-line code of independent instructions can be reordered *)
From Coq Require Import Lia.
From Verif Require Import BitstringModel CpuModel SpecCpu InsnModel ExecModel SpecIsa SpecExec SpecWhole ExecFacts ExecWholeThms
  SpecFrame FrameFacts FrameThms DependFacts DependThms SpecOrder.
Local Open Scope Z_scope.
(*@imports From Coq Require Import Lia.
From Verif Require Import InsnModel CpuModel SpecCpu TableModel ExecModel ExecFacts SpecIsa SpecExec SpecWhole SpecFrame SpecOrder OrderThms.
Local Open Scope Z_scope. @*)

Lemma independent_sym : forall py i j, independent py i j -> independent py j i.
Proof. intros py i j (A & B & C & D & E & F). exact (conj B (conj A (conj D (conj C (conj F E))))). Qed.
Lemma pairs_perm : forall py l l', Permutation l l' -> ForallOrdPairs (independent py) l -> ForallOrdPairs (independent py) l'.
Proof.
  intros py l l' P. induction P as [|x l l' P IH|x y l|l1 l2 l3 P1 IH1 P2 IH2]; intros H.
  - exact H.
  - inversion H as [|? ? Hx Hl]; subst. constructor; [|apply IH; exact Hl]. apply (Permutation_Forall P). exact Hx.
  - inversion H as [|? ? Hy Hl]; subst. inversion Hl as [|? ? Hx Hl']; subst. inversion Hy as [|? ? Hyx Hy']; subst.
    constructor; [constructor; [apply independent_sym; exact Hyx|exact Hx]|]. constructor; assumption.
  - auto.
Qed.

(** The same machine, the same run. *)
Lemma same_ok : forall c c', same_machine c c' -> cpu_ok c -> cpu_ok c'.
Proof.
  intros c c' [M E] (R & S & W). assert (G : forall k, reg c' k = reg c k) by (intros k; unfold reg; pose proof (E k) as X; unfold content in X; rewrite X; reflexivity).
  split; [|split].
  - intros k Ck. destruct (R k Ck) as (v & V & B). exists v. split; [|exact B]. pose proof (E k) as X. unfold content in X. rewrite <- X. exact V.
  - unfold sp_ok in *. rewrite !G. exact S.
  - unfold mem_ok in *. rewrite <- M. exact W.
Qed.
Lemma same_run1 : forall py c c' i s, same_machine c c' -> cpu_ok c -> from_bytes py i -> execute py c i = (s, Ok tt) ->
  exists s', execute py c' i = (s', Ok tt) /\ same_machine (s_cpu s) (s_cpu s').
Proof.
  intros py c c' i s S OK B E. pose proof (same_ok _ _ S OK) as OK'. destruct S as [M X].
  pose proof (C93_depends_proof py c c' i (proj1 OK) (proj1 OK') (fun _ => M) (fun k _ => X k)) as D. rewrite E in D.
  destruct (execute py c' i) as [s' r'] eqn:E'. destruct D as (<- & _ & DM & DE). exists s'. split; [reflexivity|]. split; [apply DM; exact M|].
  intros k. destruct (DE k) as [[A1 A2]|[A|[-> [A1 A2]]]]; [rewrite A1, A2; apply X|exact A|].
  rewrite A1, A2. unfold reg. pose proof (X 15) as Y. unfold content in Y. rewrite Y. reflexivity.
Qed.
Lemma same_run : forall py l c c' d, same_machine c c' -> cpu_ok c -> Forall (from_bytes py) l -> run_all py c l = Ok d ->
  exists d', run_all py c' l = Ok d' /\ same_machine d d'.
Proof.
  intros py l. induction l as [|i l IH]; intros c c' d S OK B R.
  - injection R as <-. exists c'. split; [reflexivity|exact S].
  - inversion B as [|? ? Bi Bl]; subst. cbn [run_all] in *. destruct (execute py c i) as [s [[]|e]] eqn:E; [|discriminate].
    destruct (same_run1 py c c' i s S OK Bi E) as (s' & E' & S'). rewrite E'. apply (IH (s_cpu s)); try assumption.
    pose proof (C40_execute_proof py c i OK Bi) as [X _]. rewrite E in X. exact X.
Qed.
(** What succeeds after an independent instruction succeeds before it. *)
Lemma succeeds_before : forall py c i j s s', cpu_ok c -> from_bytes py i -> independent py i j ->
  execute py c i = (s, Ok tt) -> execute py (s_cpu s) j = (s', Ok tt) -> exists s2, execute py c j = (s2, Ok tt).
Proof.
  intros py c i j s s' OK Bi (I1 & I2 & P1 & P2 & M1 & M2) E E'.
  assert (OKi : cpu_ok (s_cpu s)) by (pose proof (C40_execute_proof py c i OK Bi) as [X _]; rewrite E in X; exact X).
  pose proof (C92_memory_proof py c i) as W. rewrite E in W. cbn [fst] in W.
  assert (D : forall k, uses py j k = true -> content (s_cpu s) k = content c k).
  { intros k H. pose proof (C92_registers_proof py c i k) as X. rewrite E in X. apply X; [|intros ->; congruence].
    destruct (changes py i k) eqn:C; [|reflexivity]. destruct (I1 k C) as [_ Y]. congruence. }
  pose proof (C93_depends_proof py (s_cpu s) c j (proj1 OKi) (proj1 OK) (fun T => W ltac:(destruct (stores_memory (i_klass i)); [discriminate (eq_trans (eq_sym T) (M1 eq_refl))|reflexivity])) D) as X.
  rewrite E' in X. destruct (execute py c j) as [s2 r2]. destruct X as (<- & _). exists s2. reflexivity.
Qed.

(*@doc C97: instructions of straight-line code of which any two are independent can be executed
    in any order: if they succeed in one order they do in every other, with the same memory and
    registers. @*)
Lemma C97_reorder_proof : forall py c l l' c1, cpu_ok c -> Forall (straight py) l -> ForallOrdPairs (independent py) l -> Permutation l l' ->
  run_all py c l = Ok c1 -> exists c2, run_all py c l' = Ok c2 /\ same_machine c1 c2.
Proof.
  intros py c l l' c1 OK F I P. revert c c1 OK F I.
  induction P as [|x l l' P IH|x y l|l1 l2 l3 P1 IH1 P2 IH2]; intros c c1 OK F I R.
  - exists c1. split; [exact R|]. split; reflexivity.
  - cbn [run_all] in *. inversion F as [|? ? [Bx _] Fl]; subst. inversion I as [|? ? _ Il]; subst.
    destruct (execute py c x) as [s [[]|e]] eqn:E; [|discriminate].
    apply IH; try assumption. pose proof (C40_execute_proof py c x OK Bx) as [X _]. rewrite E in X. exact X.
  - inversion F as [|? ? [By Ny] F']; subst. inversion F' as [|? ? [Bx Nx] Fl]; subst. inversion I as [|? ? Iy I']; subst. inversion Iy as [|? ? Iyx Iyl]; subst.
    cbn [run_all] in R. destruct (execute py c y) as [sy [[]|e]] eqn:Ey; [|discriminate].
    destruct (execute py (s_cpu sy) x) as [syx [[]|e]] eqn:Eyx; [|discriminate].
    destruct (succeeds_before py c y x sy syx OK By Iyx Ey Eyx) as (sx & Ex).
    destruct (commute_all py c y x sy sx OK By Bx Ny Nx Iyx Ey Ex) as (cyx & cxy & A & B & M & K).
    rewrite Eyx in A. injection A as A. subst syx. cbn [s_cpu] in R.
    assert (OKy : cpu_ok (s_cpu sy)) by (pose proof (C40_execute_proof py c y OK By) as [X _]; rewrite Ey in X; exact X).
    assert (OKyx : cpu_ok cyx) by (pose proof (C40_execute_proof py (s_cpu sy) x OKy Bx) as [X _]; rewrite Eyx in X; exact X).
    cbn [run_all]. rewrite Ex, B. cbn [s_cpu]. apply (same_run py l cyx cxy c1); [split; assumption|exact OKyx| |exact R].
    eapply Forall_impl; [|exact Fl]. intros a [X _]. exact X.
  - destruct (IH1 c c1 OK F I R) as (c2 & R2 & [M2 S2]).
    destruct (IH2 c c2 OK (Permutation_Forall P1 F) (pairs_perm py _ _ P1 I) R2) as (c3 & R3 & [M3 S3]).
    exists c3. split; [exact R3|]. split; [congruence|]. intros k. rewrite S2. apply S3.
Qed.
(*@ex
Example C97_reorder_ex : exists i j, decode_bytes Py2 [17; 70] 34 = Ok i /\ decode_bytes Py2 [34; 96] 34 = Ok j /\
  cpu_ok ex_state /\ Forall (straight Py2) [i; j] /\ ForallOrdPairs (independent Py2) [i; j] /\ Permutation [i; j] [j; i] /\
  exists c, run_all Py2 ex_state [i; j] = Ok c.
Proof.
  eexists. eexists. split; [vm_compute; reflexivity|]. split; [vm_compute; reflexivity|]. split; [exact ex_state_ok|]. split; [|split; [|split]].
  - constructor; [|constructor; [|constructor]]; (split; [|vm_compute; reflexivity]).
    + exists [17; 70], 34. split; [repeat constructor; lia|vm_compute; reflexivity].
    + exists [34; 96], 34. split; [repeat constructor; lia|vm_compute; reflexivity].
  - constructor; [|constructor; [constructor|constructor]]. constructor; [|constructor].
    split; [|split; [|vm_compute; repeat split; discriminate || reflexivity]].
    + intros k H. cbn in H. unfold changes, uses. cbn. unfold written in *. split; [reflexivity|]. lia.
    + intros k H. discriminate H.
  - constructor.
  - eexists. vm_compute. reflexivity.
Qed.
@*)
(*@doc C97: and if an order raises, every order raises. @*)
Lemma C97_fails_proof : forall py c l l' e, cpu_ok c -> Forall (straight py) l -> ForallOrdPairs (independent py) l -> Permutation l l' ->
  run_all py c l = Err e -> exists e', run_all py c l' = Err e'.
Proof.
  intros py c l l' e OK F I P R. destruct (run_all py c l') as [c'|e'] eqn:R'; [|exists e'; reflexivity].
  destruct (C97_reorder_proof py c l' l c' OK (Permutation_Forall P F) (pairs_perm py _ _ P I) (Permutation_sym P) R') as (c2 & X & _). congruence.
Qed.
(*@ex
(** The second is a load over the end of its region. *)
Example C97_fails_ex : exists i j, decode_bytes Py2 [17; 70] 34 = Ok i /\ decode_bytes Py2 [132; 107] 34 = Ok j /\
  run_all Py2 ex_state [i; j] = Err IndexError /\ run_all Py2 ex_state [j; i] = Err IndexError.
Proof. eexists. eexists. split; [vm_compute; reflexivity|]. split; [vm_compute; reflexivity|]. split; vm_compute; reflexivity. Qed.
@*)
