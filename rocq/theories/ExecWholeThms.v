(** * Executing any decoded instructions: properties C40, C41, C55, C56 *)
From Coq Require Import Lia ZifyBool.
From Verif Require Import BitstringModel SpecBits BitFacts BitOps BitMisc BitText BitThms HelpersModel SpecArm HelpFacts HelpThms UtilFacts CpuModel SpecCpu
  CpuFacts CpuThms InsnModel TableModel ExecModel SpecExec ExecFacts ExecArithThms ExecMemThms ExecMultiThms ExecShape ExecRows SpecIsa SpecWhole.
Local Open Scope bool_scope.
Local Open Scope Z_scope.
(*@imports
From Coq Require Import Lia.
From Verif Require Import BitstringModel SpecBits SpecArm CpuModel SpecCpu InsnModel TableModel ExecModel SpecExec ExecFacts SpecIsa SpecWhole ExecWholeThms.
@*)

Lemma effect_ok : forall py c i f i' r, cpu_ok c -> effect py c i f i' r -> okf f ->
  cpu_ok (s_cpu (fst (execute py c i))) /\ layout (s_cpu (fst (execute py c i))) = layout c /\ reg (s_cpu (fst (execute py c i))) 15 = f 15.
Proof.
  intros py c i f i' r (R & SP & ME) (c' & E & (ws & WR) & F) (K & A & B & C).
  pose proof (keeps_eval py (i_klass i) (mkst c i)) as DM. unfold execute in E. rewrite E in DM. unfold execute. rewrite E. cbn [fst s_cpu] in *.
  split; [|split; [exact (proj1 WR)|apply F; unfold core; lia]]. split; [|split].
  - intros k CK. destruct (R k CK) as (v & G & _). specialize (DM k). rewrite G in DM.
    destruct (reg_get (c_regs c') (Some k)) as [u|] eqn:U; [|elim DM; [discriminate|reflexivity]].
    exists u. split; [reflexivity|]. specialize (K k CK). rewrite <- (F k CK) in K. unfold reg in K. rewrite U in K. exact K.
  - unfold sp_ok. rewrite !F by (unfold core; lia). split; [exact A|]. split; [exact B|exact C].
  - exact (wrote_ok c c' ws ME WR).
Qed.
Lemma shaped_ok : forall py c i, cpu_ok c -> shaped i ->
  cpu_ok (s_cpu (fst (execute py c i))) /\ layout (s_cpu (fst (execute py c i))) = layout c /\
  (names_pc py i = false -> reg (s_cpu (fst (execute py c i))) 15 = pc_after c i (snd (execute py c i))) /\
  object_ok py i (s_self (fst (execute py c i))).
Proof.
  intros py c i C S. destruct (outcome_shape py c i C S) as (f & i' & r & E & F & P & O).
  destruct (effect_ok py c i f i' r C E F) as (A1 & A2 & A3). split; [exact A1|]. split; [exact A2|].
  destruct E as (c' & E & _). rewrite E in *. cbn [fst snd s_self s_cpu] in *. split; [|exact O].
  intros N0. rewrite A3. apply P. exact N0.
Qed.

(*@doc C40: executing a decoded instruction, whether or not it raises, keeps the machine
well-formed and the mapped regions. @*)
Lemma C40_execute_proof : forall py c i, cpu_ok c -> from_bytes py i ->
  let c' := s_cpu (fst (execute py c i)) in cpu_ok c' /\ layout c' = layout c.
Proof.
  intros py c i C B. pose proof (shaped_ok py c i C (decoded_shaped py i B)) as (A1 & A2 & _). split; assumption.
Qed.
(*@ex
Example C40_execute_ex : cpu_ok ex_state /\ exists i, decode_bytes Py2 [15; 181] 34 = Ok i /\ i_mnemonic i = "push"%string /\
  reg_after Py2 ex_state i 13 = 28 /\ reg_after Py2 ex_state i 17 = 28.
Proof. split; [exact ex_state_ok|]. eexists. split; [vm_compute; reflexivity|]. vm_compute. repeat split; reflexivity. Qed.
@*)

Lemma pool_ok : forall py ns c l, cpu_ok c -> Forall shaped l ->
  let s := run_pool py (c, l) ns in cpu_ok (fst s) /\ layout (fst s) = layout c /\ Forall shaped (snd s).
Proof.
  intros py ns. induction ns as [|n ns IH]; intros c l C SS; [split; [exact C|split; [reflexivity|exact SS]]|].
  unfold run_pool. cbn [fold_left]. change (fold_left (step_pool py) ns ?s) with (run_pool py s ns).
  unfold step_pool. destruct (nth_error l n) as [i|] eqn:E.
  - pose proof (proj1 (Forall_forall _ _) SS i (nth_error_In _ _ E)) as Si.
    pose proof (shaped_ok py c i C Si) as (A1 & A2 & _ & (A3 & _)). cbv zeta.
    specialize (IH (s_cpu (fst (execute py c i))) (firstn n l ++ s_self (fst (execute py c i)) :: skipn (S n) l) A1).
    cbv zeta in IH. rewrite A2 in IH. apply IH. apply Forall_app. split; [|constructor; [exact A3|]].
    + apply Forall_forall. intros x I. apply (proj1 (Forall_forall _ _) SS). rewrite <- (firstn_skipn n l). apply in_or_app. left. exact I.
    + apply Forall_forall. intros x I. apply (proj1 (Forall_forall _ _) SS). rewrite <- (firstn_skipn (S n) l). apply in_or_app. right. exact I.
  - apply IH; assumption.
Qed.

(*@doc C40: the same after executing the objects of a pool of decoded instructions any
number of times in any order, with exceptions caught in between. @*)
Lemma C40_history_proof : forall py c l ns, cpu_ok c -> Forall (from_bytes py) l ->
  let c' := fst (run_pool py (c, l) ns) in cpu_ok c' /\ layout c' = layout c.
Proof.
  intros py c l ns C B.
  assert (S : Forall shaped l) by (apply Forall_forall; intros i I; apply (decoded_shaped py), (proj1 (Forall_forall _ _) B), I).
  pose proof (pool_ok py ns c l C S) as (A1 & A2 & _). split; assumption.
Qed.
(*@ex
Example C40_history_ex : exists i j, decode_bytes Py2 [15; 181] 34 = Ok i /\ decode_bytes Py2 [79; 240; 0; 64] 34 = Ok j /\
  reg (fst (run_pool Py2 (ex_state, [i; j]) [0; 1; 0; 1; 1]%nat)) 13 = 8 /\ reg (fst (run_pool Py2 (ex_state, [i; j]) [0; 1; 0; 1; 1]%nat)) 0 = 2147483648.
Proof. eexists. eexists. split; [vm_compute; reflexivity|]. split; [vm_compute; reflexivity|]. vm_compute. split; reflexivity. Qed.
@*)

(*@doc C41: an instruction that is not a branch and does not name the pc as destination
moves the pc on by its size, and leaves it if it raises. @*)
Lemma C41_advance_proof : forall py c i s r, cpu_ok c -> from_bytes py i -> names_pc py i = false -> execute py c i = (s, r) ->
  reg (s_cpu s) 15 = match r with Ok _ => (reg c 15 + i_size i) mod 2 ^ 32 | Err _ => reg c 15 end.
Proof.
  intros py c i s r C B N0 E. pose proof (shaped_ok py c i C (decoded_shaped py i B)) as (_ & _ & A & _).
  specialize (A N0). rewrite E in A. cbn [fst snd] in A. rewrite A. destruct r; reflexivity.
Qed.
(*@ex
Example C41_advance_ex : exists i, decode_bytes Py2 [15; 181] 34 = Ok i /\ names_pc Py2 i = false /\ reg ex_state 15 = 34 /\ reg_after Py2 ex_state i 15 = 36.
Proof. eexists. split; [vm_compute; reflexivity|]. vm_compute. repeat split; reflexivity. Qed.
@*)

Lemma straight : forall py l c c' l', cpu_ok c -> Forall shaped l -> Forall (fun i => names_pc py i = false) l ->
  cpu_execute py c l = ((c', l'), Ok tt) -> cpu_ok c' /\ layout c' = layout c /\ reg c' 15 = wrap (reg c 15 + sizes l).
Proof.
  intros py l. induction l as [|i l IH]; intros c c' l' C S N0 E; cbn [cpu_execute] in E.
  - injection E as <- _. split; [exact C|]. split; [reflexivity|]. cbn. rewrite Z.add_0_r. symmetry. apply wrap_small.
    apply word_reg; [apply C|unfold core; lia].
  - inversion S as [|? ? Si Sl]; subst. inversion N0 as [|? ? Ni Nl]; subst.
    pose proof (shaped_ok py c i C Si) as (A1 & A2 & A3 & _). specialize (A3 Ni).
    destruct (execute py c i) as [s [u|e]]; [|discriminate]. cbn [fst snd pc_after] in *.
    destruct (cpu_execute py (s_cpu s) l) as [[c2 l2] r] eqn:E2. injection E as -> _ ->.
    destruct (IH _ _ _ A1 Sl Nl E2) as (B1 & B2 & B3). split; [exact B1|]. split; [congruence|]. rewrite B3, A3.
    unfold wrap, sizes. cbn [fold_right]. rewrite Zplus_mod_idemp_l. f_equal. fold (sizes l). unfold sizes. lia.
Qed.

(*@doc C41: a straight-line sequence of decoded instructions, executed by the machine
without exception, advances the pc by the sum of their sizes. @*)
Lemma C41_straight_line_proof : forall py c l c' l', cpu_ok c -> Forall (from_bytes py) l -> Forall (fun i => names_pc py i = false) l ->
  cpu_execute py c l = ((c', l'), Ok tt) -> reg c' 15 = (reg c 15 + sizes l) mod 2 ^ 32.
Proof.
  intros py c l c' l' C B N0 E. refine (proj2 (proj2 (straight py l c c' l' C _ N0 E))).
  apply Forall_forall. intros i I. apply (decoded_shaped py), (proj1 (Forall_forall _ _) B), I.
Qed.
(*@ex
Example C41_straight_line_ex : exists i j, decode_bytes Py2 [15; 181] 34 = Ok i /\ decode_bytes Py2 [79; 240; 0; 64] 34 = Ok j /\
  names_pc Py2 i = false /\ names_pc Py2 j = false /\ sizes [i; j] = 6 /\
  snd (cpu_execute Py2 ex_state [i; j]) = Ok tt /\ reg (fst (fst (cpu_execute Py2 ex_state [i; j]))) 15 = 40.
Proof. eexists. eexists. split; [vm_compute; reflexivity|]. split; [vm_compute; reflexivity|]. vm_compute. repeat split; reflexivity. Qed.
@*)

(*@doc C55: except for cmp.w, cmn.w and rsb.w with an immediate that is negative as a signed
number, a decoded object executed on any machines any number of times behaves on every
machine as the object fresh from decoding. Missing: those three instructions. @*)
Lemma C55_partial_proof : forall py c i cs, from_bytes py i -> stable i -> Forall cpu_ok cs -> regs_ok c ->
  execute py c (rerun py i cs) = execute py c i.
Proof.
  intros py c i cs B ST CS R. pose proof (decoded_shaped py i B) as S. clear B. revert i ST S.
  induction CS as [|c1 cs C1 CS IH]; intros i ST S; [reflexivity|]. unfold rerun. cbn [fold_left].
  change (fold_left ?f cs ?x) with (rerun py x cs).
  pose proof (shaped_ok py c1 i C1 S) as (_ & _ & _ & (A1 & _ & _ & A2)). destruct (A2 ST) as [A3 A4].
  rewrite (IH _ A3 A1). apply A4. exact R.
Qed.
(*@ex
Example C55_partial_ex : exists i, decode_bytes Py2 [79; 240; 0; 64] 34 = Ok i /\ stable i /\ i_mnemonic i = "mov.w"%string /\
  reg_after Py2 ex_state (rerun Py2 i [ex_state; ex_state]) 0 = 2147483648.
Proof.
  eexists. split; [vm_compute; reflexivity|]. split; [intros [E|E]; vm_compute in E; discriminate E|]. vm_compute. split; reflexivity.
Qed.
@*)

(*@doc C55: refuted: cmp.w r0, #0x80000000 executed twice sets other flags the second
time. @*)
Lemma C55_refuted_proof : exists i c, from_bytes Py2 i /\ cpu_ok c /\
  reg (s_cpu (fst (execute Py2 c (rerun Py2 i [c])))) 16 <> reg (s_cpu (fst (execute Py2 c i))) 16.
Proof.
  assert (X : exists i, decode_bytes Py2 [176; 241; 0; 79] 34 = Ok i /\
    (reg (s_cpu (fst (execute Py2 ex_state (rerun Py2 i [ex_state])))) 16 =? reg (s_cpu (fst (execute Py2 ex_state i))) 16) = false).
  { eexists. split; [vm_compute; reflexivity|]. vm_compute. reflexivity. }
  destruct X as (i & D & E). exists i, ex_state. split; [|split; [exact ex_state_ok|apply Z.eqb_neq; exact E]].
  exists [176; 241; 0; 79], 34. split; [|exact D]. repeat apply Forall_cons; try apply Forall_nil; lia.
Qed.

(*@doc C56: if a load, store or literal load raises, the machine and the object are what
they were. @*)
Lemma C56_unchanged_proof : forall py c i s e, cpu_ok c -> from_bytes py i -> i_klass i = Load \/ i_klass i = Store \/ i_klass i = LoadLiteral ->
  execute py c i = (s, Err e) -> s = mkst c i.
Proof.
  intros py c i s e C B KK E. pose proof (decoded_shaped py i B) as (l & SH & A). destruct C as (R & SP & ME).
  assert (X : forall t n idx add wb ms sgn off, loads py c i t n idx add wb ms sgn off -> s = mkst c i).
  { intros t n idx add wb ms sgn off H. unfold loads in H. destruct (addresses add idx (reg c n) off) as [oa ad].
    destruct H as (H1 & H2 & [[v V]|X]); [destruct (H1 v V) as (c' & E' & _)|rewrite (H2 X) in E]; congruence. }
  assert (Y : forall f ws, stores py c i f ws -> s = mkst c i) by (intros f ws (c' & E' & _); congruence).
  remember (i_klass i) as k eqn:K.
  destruct SH; try (destruct KK as [KK|[KK|KK]]; discriminate KK); symmetry in K.
  - refine (X _ _ _ _ _ _ _ _ (C48_load_immediate_proof py c i t n v true add false ms sgn R ME _ _ _ _ (conj K A))); assumption.
  - match goal with H : shift_ok _ _ |- _ => destruct H end. refine (X _ _ _ _ _ _ _ _ (C48_load_register_proof py c i t n m ty amount true add false ms sgn R ME _ _ _ _ _ _ (conj K A))); assumption.
  - refine (Y _ _ (C48_store_immediate_proof py c i t n v true add false ms sgn R ME _ _ _ _ (conj K A))); assumption.
  - match goal with H : shift_ok _ _ |- _ => destruct H end. refine (Y _ _ (C48_store_register_proof py c i t n m ty amount true add false ms sgn R ME _ _ _ _ _ _ (conj K A))); assumption.
  - pose proof (C48_load_literal_proof py c i t v add ms sgn R ME H H0 H1 (conj K A)) as Q. cbv zeta in Q.
    destruct Q as (H2 & H3 & [[u U]|Q]); [destruct (H2 u U) as (c' & E' & _)|rewrite (H3 Q) in E]; congruence.
Qed.
(*@ex
Example C56_unchanged_ex : exists i, decode_bytes Py2 [24; 104] 34 = Ok i /\ i_klass i = Load /\
  let c := do_cops ex_state [CopR 3 (NInt 62)] in snd (execute Py2 c i) = Err IndexError /\ reg_after Py2 c i 15 = 34.
Proof. eexists. split; [vm_compute; reflexivity|]. vm_compute. repeat split; reflexivity. Qed.
@*)

(*@doc C56: stores never raise. @*)
Lemma C56_stores_proof : forall py c i, cpu_ok c -> from_bytes py i -> i_klass i = Store \/ i_klass i = Push \/ i_klass i = StoreMultiple ->
  snd (execute py c i) = Ok tt.
Proof.
  intros py c i C B KK. pose proof (decoded_shaped py i B) as (l & SH & A). destruct C as (R & SP & ME).
  assert (Y : forall f ws, stores py c i f ws -> snd (execute py c i) = Ok tt) by (intros f ws (c' & E' & _); rewrite E'; reflexivity).
  remember (i_klass i) as k eqn:K.
  destruct SH; try (destruct KK as [KK|[KK|KK]]; discriminate KK); symmetry in K.
  - refine (Y _ _ (C48_store_immediate_proof py c i t n v true add false ms sgn R ME _ _ _ _ (conj K A))); assumption.
  - match goal with H : shift_ok _ _ |- _ => destruct H end. refine (Y _ _ (C48_store_register_proof py c i t n m ty amount true add false ms sgn R ME _ _ _ _ _ _ (conj K A))); assumption.
  - refine (Y _ _ (C49_push_proof py c i v R ME _ (conj K A))); assumption.
  - refine (Y _ _ (C50_store_multiple_proof py c i n v wb R ME _ _ (conj K A))); assumption.
Qed.
(*@ex
Example C56_stores_ex : exists i, decode_bytes Py2 [24; 96] 34 = Ok i /\ i_klass i = Store /\
  snd (execute Py2 (do_cops ex_state [CopR 3 (NInt 62)]) i) = Ok tt.
Proof. eexists. split; [vm_compute; reflexivity|]. vm_compute. repeat split; reflexivity. Qed.
@*)
