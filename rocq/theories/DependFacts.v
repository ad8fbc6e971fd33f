(** * What an instruction depends on: lemmas about two machines side by side *)
From Coq Require Import Lia ZifyBool.
From Verif Require Import BitstringModel SpecBits BitFacts BitOps BitMisc BitText HelpersModel SpecArm HelpFacts CpuModel SpecCpu CpuFacts CpuThms InsnModel ExecModel SpecExec SpecWhole SpecFrame ExecFacts FrameFacts.
Local Open Scope bool_scope.
Local Open Scope Z_scope.

Lemma read_register_same : forall c c' r k, register_name_to_index r = Some k -> content c k = content c' k -> read_register c r = read_register c' r.
Proof. intros c c' r k R E. unfold read_register, mock_read_register. rewrite R. unfold content in E. rewrite E. reflexivity. Qed.
Lemma r_get_same : forall c c' k, content c k = content c' k -> r_get c k = r_get c' k.
Proof. intros c c' k E. unfold r_get, ri_get. rewrite !Z.add_0_l. destruct (15 <? k); [reflexivity|]. apply (read_register_same _ _ _ k); [reflexivity|exact E]. Qed.
Lemma apsr_get_same : forall c c' f, content c 16 = content c' 16 -> apsr_get c f = apsr_get c' f.
Proof. intros c c' f E. unfold apsr_get, get_xpsr. rewrite (read_register_same c c' (RName "xpsr") 16 eq_refl E). reflexivity. Qed.
Lemma read_memory_same : forall c c' a n, c_mem c = c_mem c' -> read_memory c a n = read_memory c' a n.
Proof. intros [r m] [r' m'] a n E. cbn [c_mem] in E. subst m'. reflexivity. Qed.
Lemma write_memory_same : forall c c' a v n, c_mem c = c_mem c' ->
  match write_memory c a v n, write_memory c' a v n with
  | Ok d, Ok d' => c_mem d = c_mem d' /\ c_regs d = c_regs c /\ c_regs d' = c_regs c'
  | Err e, Err e' => e = e'
  | _, _ => False
  end.
Proof.
  intros [r m] [r' m'] a v n E. cbn [c_mem] in E. subst m'. unfold write_memory, mock_write_memory.
  change (find_mem (mkcpu r' m) (num_val a)) with (find_mem (mkcpu r m) (num_val a)).
  destruct (find_mem (mkcpu r m) (num_val a)) as [[[i b] o]|]; [|auto].
  destruct (n =? 8); [destruct (list_setslice _ _ _ _); cbn [bind]; auto|].
  destruct (n =? 16); [destruct (list_setslice _ _ _ _); cbn [bind]; auto|].
  destruct (n =? 32); [destruct (list_setslice _ _ _ _); cbn [bind]; auto|]. auto.
Qed.
Definition rrel {A B} (Q : A -> B -> Prop) (r1 : res A) (r2 : res B) : Prop :=
  match r1, r2 with Ok a, Ok b => Q a b | Err e, Err e' => e = e' | _, _ => False end.
Lemma Shift_C_carry : forall x ty n a b, ty <> SR_RRX -> rrel (fun p q => fst p = fst q) (Shift_C x ty n a) (Shift_C x ty n b).
Proof.
  intros x ty n a b N. unfold Shift_C. destruct (assert_ _); cbn [bind]; [|reflexivity]. destruct ((n =? 0) || sr_eqb ty SR_None); [reflexivity|].
  destruct ty; try contradiction; try reflexivity.
  - destruct (LSL_C x n); reflexivity.
  - destruct (LSR_C x n); reflexivity.
  - destruct (ASR_C x n); reflexivity.
  - destruct (ROR_C x n); reflexivity.
Qed.
Lemma Shift_carry : forall x ty n a b, ty <> SR_RRX -> Shift x ty n a = Shift x ty n b.
Proof.
  intros x ty n a b N. unfold Shift. pose proof (Shift_C_carry x ty n a b N) as H.
  destruct (Shift_C x ty n a) as [[p p']|], (Shift_C x ty n b) as [[q q']|]; cbn [rrel fst bind] in *; congruence || contradiction.
Qed.

Section Rel.
  Variables (py : pyver) (i0 : insn) (MU : bool) (U : Z -> bool) (c1 c2 : cpu).
  Hypothesis OK1 : regs_ok c1.
  Hypothesis OK2 : regs_ok c2.
  Hypothesis AG : forall k, U k = true -> content c1 k = content c2 k.

  Definition kin (i : insn) : Prop :=
    skeleton (i_attrs i) = skeleton (i_attrs i0) /\ (sets_flags i = true -> sets_flags i0 = true) /\
    i_is32 i = i_is32 i0 /\ has (a_imm32 (i_attrs i)) = has (a_imm32 (i_attrs i0)).
  (** Before ([adv] is false) and after the pc has been moved on. *)
  Definition R (adv : bool) (s1 s2 : st) : Prop :=
    s_self s1 = s_self s2 /\ kin (s_self s1) /\ (MU = true -> c_mem (s_cpu s1) = c_mem (s_cpu s2)) /\
    forall k, if adv then same_effect (i_size i0) c1 c2 (s_cpu s1) (s_cpu s2) k
              else content (s_cpu s1) k = content c1 k /\ content (s_cpu s2) k = content c2 k \/ content (s_cpu s1) k = content (s_cpu s2) k.
  Lemma R_adv : forall a s1 s2, R a s1 s2 -> R true s1 s2.
  Proof. intros [|] s1 s2 (S & K & M & E); [exact (conj S (conj K (conj M E)))|]. split; [exact S|]. split; [exact K|]. split; [exact M|]. intros k. destruct (E k) as [H|H]; [left|right; left]; exact H. Qed.
  Lemma R_used : forall a s1 s2 k, R a s1 s2 -> U k = true -> content (s_cpu s1) k = content (s_cpu s2) k.
  Proof.
    intros a s1 s2 k H Uk. apply R_adv in H. destruct H as (_ & _ & _ & E). pose proof (AG k Uk) as X.
    destruct (E k) as [[A B]|[A|[-> [A B]]]]; [congruence|exact A|]. rewrite A, B. do 2 f_equal. unfold reg. unfold content in X. rewrite X. reflexivity.
  Qed.

  Definition rel {A B} (a a' : bool) (Q : A -> B -> Prop) (m1 : comp A) (m2 : comp B) : Prop := forall s1 s2, R a s1 s2 ->
    R true (fst (m1 s1)) (fst (m2 s2)) /\
    match snd (m1 s1), snd (m2 s2) with
    | Ok x, Ok y => R a' (fst (m1 s1)) (fst (m2 s2)) /\ Q x y
    | Err e, Err e' => e = e'
    | _, _ => False
    end.
  Definition eqv {A} (P : A -> Prop) (x y : A) : Prop := x = y /\ P x.
  Definition same {A} (a a' : bool) (P : A -> Prop) (m : comp A) : Prop := rel a a' (eqv P) m m.

  Lemma rel_bind : forall A B A' B' a a' a'' (Q : A -> A' -> Prop) (Q' : B -> B' -> Prop) m1 m2 f1 f2,
    rel a a' Q m1 m2 -> (forall x y, Q x y -> rel a' a'' Q' (f1 x) (f2 y)) -> rel a a'' Q' (mbind m1 f1) (mbind m2 f2).
  Proof.
    intros A B A' B' a a' a'' Q Q' m1 m2 f1 f2 H1 H2 s1 s2 H. specialize (H1 s1 s2 H). unfold mbind.
    destruct (m1 s1) as [s1' [x|e]], (m2 s2) as [s2' [y|e']]; cbn [fst snd] in *; destruct H1 as [H0 H1]; try contradiction; [|auto].
    destruct H1 as [H1 q]. exact (H2 x y q s1' s2' H1).
  Qed.
  Lemma same_bind : forall A B a a' a'' (P : A -> Prop) (Q' : B -> B -> Prop) m f1 f2,
    same a a' P m -> (forall x, P x -> rel a' a'' Q' (f1 x) (f2 x)) -> rel a a'' Q' (mbind m f1) (mbind m f2).
  Proof. intros A B a a' a'' P Q' m f1 f2 H1 H2. apply (rel_bind _ _ _ _ a a' a'' (eqv P)); [exact H1|]. intros x y [<- p]. apply H2, p. Qed.
  Lemma rel_get : forall A B a (Q : A -> B -> Prop) (f1 : st -> res A) (f2 : st -> res B), (forall s1 s2, R a s1 s2 -> rrel Q (f1 s1) (f2 s2)) ->
    rel a a Q (fun s => (s, f1 s)) (fun s => (s, f2 s)).
  Proof.
    intros A B a Q f1 f2 H s1 s2 K. specialize (H s1 s2 K). cbn [fst snd]. split; [exact (R_adv _ _ _ K)|].
    destruct (f1 s1), (f2 s2); cbn [rrel] in H; auto.
  Qed.
  Lemma rrel_refl : forall A (P : A -> Prop) r, (forall x, r = Ok x -> P x) -> rrel (eqv P) r r.
  Proof. intros A P [x|e] H; cbn [rrel]; [split; auto|reflexivity]. Qed.
  Lemma same_lift : forall A a (r : res A), same a a (fun _ => True) (lift r).
  Proof. intros A a r. apply rel_get. intros. apply rrel_refl. auto. Qed.
  Lemma rel_lift : forall A B a (Q : A -> B -> Prop) r1 r2, rrel Q r1 r2 -> rel a a Q (lift r1) (lift r2).
  Proof. intros A B a Q r1 r2 H. apply rel_get. auto. Qed.
  Lemma rel_ret : forall A B a (Q : A -> B -> Prop) x y, Q x y -> rel a a Q (ret x) (ret y).
  Proof. intros A B a Q x y H. apply (rel_get _ _ a Q (fun _ => Ok x) (fun _ => Ok y)). auto. Qed.
  Lemma same_ret : forall A a (P : A -> Prop) x, P x -> same a a P (ret x).
  Proof. intros A a P x H. apply rel_ret. split; auto. Qed.
  Lemma same_fail : forall A a (P : A -> Prop) e, same a a P (fail e).
  Proof. intros A a P e. apply (rel_get A A a (eqv P) (fun _ => Err e) (fun _ => Err e)). intros. reflexivity. Qed.
  Lemma same_getc : forall A a (f : cpu -> res A), (forall s1 s2, R a s1 s2 -> f (s_cpu s1) = f (s_cpu s2)) -> same a a (fun _ => True) (getc f).
  Proof. intros A a f H. apply rel_get. intros s1 s2 K. rewrite (H s1 s2 K). apply rrel_refl. auto. Qed.
  Lemma same_attr : forall A a (f : attrs -> option A), (forall x y, skeleton x = skeleton y -> f x = f y) -> same a a (fun x => f (i_attrs i0) = Some x) (attr f).
  Proof.
    intros A a f H. apply rel_get. intros s1 s2 (S & (K & _) & _). rewrite <- S, (H _ _ K). destruct (f (i_attrs i0)); cbn [rrel]; [split|]; reflexivity.
  Qed.
  Lemma same_imm : forall a, same a a (fun _ => has (a_imm32 (i_attrs i0)) = true) (attr a_imm32).
  Proof. intros a. apply rel_get. intros s1 s2 (S & (_ & _ & _ & K) & _). rewrite <- S. rewrite <- K. destruct (a_imm32 _); cbn [rrel]; [split|]; reflexivity. Qed.
  Lemma same_setflags : forall a, same a a (fun sf => sets sf = true -> sets_flags i0 = true) (attr a_setflags).
  Proof.
    intros a. apply rel_get. intros s1 s2 (S & (_ & K & _) & _). rewrite <- S. unfold sets_flags at 1 in K. destruct (a_setflags _) as [sf|]; cbn [rrel]; [split; [reflexivity|exact K]|reflexivity].
  Qed.
  Lemma same_hasattr : forall A a (f : attrs -> option A), (forall x y, skeleton x = skeleton y -> f x = f y) -> same a a (fun b => b = has (f (i_attrs i0))) (hasattr f).
  Proof. intros A a f H. apply rel_get. intros s1 s2 (S & (K & _) & _). rewrite <- S, (H _ _ K). cbn [rrel]. split; reflexivity. Qed.
  Lemma same_has_imm : forall a, same a a (fun b => b = has (a_imm32 (i_attrs i0))) (hasattr a_imm32).
  Proof. intros a. apply rel_get. intros s1 s2 (S & (_ & _ & _ & K) & _). rewrite <- S, <- K. cbn [rrel]. split; reflexivity. Qed.
  Lemma same_size : forall a, same a a (fun n => n = i_size i0) size.
  Proof. intros a. apply rel_get. intros s1 s2 (S & (_ & _ & K & _) & _). rewrite <- S. cbn [rrel]. split; [reflexivity|]. unfold i_size. rewrite K. reflexivity. Qed.
  Lemma same_setattr : forall a f, (forall i, kin i -> kin (set_attrs f i)) -> same a a (fun _ => True) (setattr f).
  Proof.
    intros a f H s1 s2 (S & K & M & E). unfold setattr. cbn [fst snd s_cpu s_self].
    assert (X : R a (mkst (s_cpu s1) (set_attrs f (s_self s1))) (mkst (s_cpu s2) (set_attrs f (s_self s2)))).
    { split; [cbn [s_self]; rewrite S; reflexivity|]. split; [apply H, K|]. split; [exact M|exact E]. }
    split; [exact (R_adv _ _ _ X)|]. split; [exact X|]. split; auto.
  Qed.
  Lemma same_put_imm : forall a b v, (b = true -> has (a_imm32 (i_attrs i0)) = true) -> same a a (fun _ => True) (put_imm b v).
  Proof.
    intros a [|] v H; [|apply same_ret; auto]. apply same_setattr. intros i (S & F & Z & I). split; [exact S|]. split; [exact F|]. split; [exact Z|].
    cbn. rewrite H; reflexivity.
  Qed.
  Lemma same_no_flags : forall a, same a a (fun _ => True) (setattr (with_setflags Never)).
  Proof. intros a. apply same_setattr. intros i (S & F & Z & I). split; [exact S|]. split; [discriminate|]. split; [exact Z|exact I]. Qed.
  Lemma rel_setc : forall a f1 f2, (forall s1 s2, R a s1 s2 -> rrel (fun d1 d2 => R a (mkst d1 (s_self s1)) (mkst d2 (s_self s2))) (f1 (s_cpu s1)) (f2 (s_cpu s2))) ->
    rel a a (fun _ _ => True) (setc f1) (setc f2).
  Proof.
    intros a f1 f2 H s1 s2 K. specialize (H s1 s2 K). unfold setc. destruct (f1 (s_cpu s1)) as [d1|], (f2 (s_cpu s2)) as [d2|]; cbn [rrel fst snd] in *; try contradiction.
    - split; [exact (R_adv _ _ _ H)|auto].
    - split; [exact (R_adv _ _ _ K)|auto].
  Qed.
  Lemma unit_same : forall a a' m, rel a a' (fun _ _ : unit => True) m m -> same a a' (fun _ => True) m.
  Proof.
    intros a a' m H s1 s2 K. destruct (H s1 s2 K) as [X Y]. split; [exact X|]. destruct (snd (m s1)) as [[]|], (snd (m s2)) as [[]|]; try contradiction; [|exact Y].
    split; [exact (proj1 Y)|]. split; auto.
  Qed.
  Lemma R_write : forall a s1 s2 k v, R a s1 s2 -> R a (mkst (mock_write_register (s_cpu s1) (Some k) v) (s_self s1)) (mkst (mock_write_register (s_cpu s2) (Some k) v) (s_self s2)).
  Proof.
    intros a s1 s2 k v (S & K & M & E). split; [exact S|]. split; [exact K|]. split; [exact M|]. intros j. specialize (E j). cbn [s_cpu]. unfold same_effect, content in *.
    rewrite !mock_write_get. destruct (written k j); [|exact E]. destruct a; auto.
  Qed.
  Lemma same_write : forall a r k v, register_name_to_index r = Some k -> same a a (fun _ => True) (setc (fun c => Ok (write_register c r v))).
  Proof. intros a r k v H. apply unit_same, rel_setc. intros s1 s2 K. cbn [rrel]. unfold write_register. rewrite H. apply R_write, K. Qed.
  Lemma same_rset : forall a d v, same a a (fun _ => True) (rset d v).
  Proof.
    intros a d v. apply unit_same, rel_setc. intros s1 s2 K. unfold r_set, ri_set. destruct (15 <? 0 + d); cbn [rrel]; [reflexivity|]. unfold write_register. apply R_write, K.
  Qed.
  Lemma same_fset : forall a f v, U 16 = true -> same a a (fun _ => True) (fset f v).
  Proof.
    intros a f v H. apply unit_same, rel_setc. intros s1 s2 K. unfold apsr_set, get_xpsr.
    rewrite (read_register_same (s_cpu s1) (s_cpu s2) (RName "xpsr") 16 eq_refl (R_used _ _ _ _ K H)).
    destruct (read_register (s_cpu s2) (RName "xpsr")) as [x|]; cbn [bind rrel]; [|reflexivity].
    destruct (bs_init _ _) as [b|]; cbn [bind rrel]; [|reflexivity]. destruct (bs_setitem _ _ _) as [y|]; cbn [bind rrel]; [|reflexivity].
    unfold set_xpsr, write_register. apply R_write, K.
  Qed.
  Lemma same_write_memory : forall a ad v n, MU = true -> same a a (fun _ => True) (setc (fun c => write_memory c ad v n)).
  Proof.
    intros a ad v n T. apply unit_same, rel_setc. intros s1 s2 (S & K & M & E). pose proof (write_memory_same (s_cpu s1) (s_cpu s2) ad v n (M T)) as H.
    destruct (write_memory (s_cpu s1) ad v n) as [d1|], (write_memory (s_cpu s2) ad v n) as [d2|]; cbn [rrel]; try contradiction; [|exact H].
    destruct H as (M' & R1 & R2). split; [exact S|]. split; [exact K|]. split; [intros _; exact M'|]. intros k. specialize (E k). cbn [s_cpu]. unfold same_effect, content in *. rewrite R1, R2. exact E.
  Qed.
  Lemma same_rget : forall a k, U k = true -> same a a (fun _ => True) (rget k).
  Proof. intros a k H. apply same_getc. intros s1 s2 K. apply r_get_same, (R_used _ _ _ _ K H). Qed.
  Lemma same_read : forall a r k, register_name_to_index r = Some k -> U k = true -> same a a (fun _ => True) (getc (fun c => read_register c r)).
  Proof. intros a r k E H. apply same_getc. intros s1 s2 K. apply (read_register_same _ _ r k E), (R_used _ _ _ _ K H). Qed.
  Lemma same_fget : forall a f, U 16 = true -> same a a (fun _ => True) (fget f).
  Proof. intros a f H. apply same_getc. intros s1 s2 K. apply apsr_get_same, (R_used _ _ _ _ K H). Qed.
  Lemma same_read_memory : forall a ad n, MU = true -> same a a (fun _ => True) (getc (fun c => read_memory c ad n)).
  Proof. intros a ad n T. apply same_getc. intros s1 s2 (_ & _ & M & _). apply read_memory_same, M, T. Qed.
  (** Reading a flag: the same if it may be used, in any case not an exception in one alone. *)
  Lemma rel_fget : forall a f, rel a a (fun x y => U 16 = true -> x = y) (fget f) (fget f).
  Proof.
    intros a f. apply (rel_get _ _ a _ (fun s => apsr_get (s_cpu s) f) (fun s => apsr_get (s_cpu s) f)). intros s1 s2 K.
    assert (E : content (s_cpu s1) 16 = content c1 16 /\ content (s_cpu s2) 16 = content c2 16 \/ content (s_cpu s1) 16 = content (s_cpu s2) 16).
    { apply R_adv in K. destruct K as (_ & _ & _ & E). destruct (E 16) as [X|[X|[X _]]]; [left; exact X|right; exact X|discriminate X]. }
    destruct E as [[E1 E2]|E].
    - destruct (Bool.bool_dec (U 16) true) as [u|u].
      + rewrite (apsr_get_same (s_cpu s1) (s_cpu s2) f (R_used _ _ _ _ K u)). destruct (apsr_get _ _); cbn [rrel]; auto.
      + rewrite (apsr_get_same (s_cpu s1) c1 f E1), (apsr_get_same (s_cpu s2) c2 f E2), !apsr_get_ok by assumption. cbn [rrel]. intros X. contradiction.
    - rewrite (apsr_get_same (s_cpu s1) (s_cpu s2) f E). destruct (apsr_get _ _); cbn [rrel]; auto.
  Qed.
  Lemma pc_next_exec : forall s x, content (s_cpu s) 15 = Some x -> word x ->
    pc_next s = (mkst (mock_write_register (s_cpu s) (Some 15) (wrap (x + i_size (s_self s)))) (s_self s), Ok tt).
  Proof.
    intros s x X Wx. unfold pc_next, pc_add, mbind, size, getc, lift, setc, get_pc. rewrite (read_content _ (RName "pc") 15 x eq_refl X Wx).
    cbn [s_cpu s_self]. rewrite add_int by exact Wx. reflexivity.
  Qed.
  Lemma pc_content : forall c, regs_ok c -> content c 15 = Some (reg c 15) /\ word (reg c 15).
  Proof. intros c H. destruct (H 15 ltac:(left; lia)) as (v & E & B). unfold content, reg. rewrite E. split; [reflexivity|exact B]. Qed.
  Lemma same_next : same false true (fun _ => True) pc_next.
  Proof.
    intros s1 s2 K.
    assert (G : content (s_cpu s1) 15 = content (s_cpu s2) 15 -> R true (fst (pc_next s1)) (fst (pc_next s2)) /\
      match snd (pc_next s1), snd (pc_next s2) with Ok x, Ok y => R true (fst (pc_next s1)) (fst (pc_next s2)) /\ eqv (fun _ => True) x y | Err e, Err e' => e = e' | _, _ => False end).
    { intros E. assert (X : same false false (fun _ => True) (getc get_pc) -> True) by auto. clear X.
      pose proof K as (S & KI & _). unfold pc_next, pc_add, mbind, size, getc, lift, setc, get_pc.
      rewrite (read_register_same (s_cpu s1) (s_cpu s2) (RName "pc") 15 eq_refl E). rewrite S.
      destruct (read_register (s_cpu s2) (RName "pc")) as [x|]; cbn [fst snd]; [|split; [exact (R_adv _ _ _ K)|reflexivity]].
      destruct (bs_add x _) as [y|]; cbn [fst snd]; [|split; [exact (R_adv _ _ _ K)|reflexivity]].
      assert (Y : R true (mkst (set_pc (s_cpu s1) (NBits y)) (s_self s2)) (mkst (set_pc (s_cpu s2) (NBits y)) (s_self s2))).
      { rewrite <- S at 1. apply (R_adv false). unfold set_pc, write_register. change (register_name_to_index (RName "pc")) with (Some 15). apply R_write, K. }
      split; [exact Y|]. split; [exact Y|]. split; auto. }
    pose proof K as (S & KI & M & E). destruct (E 15) as [[E1 E2]|E0]; [|exact (G E0)].
    destruct (pc_content c1 OK1) as [P1 W1], (pc_content c2 OK2) as [P2 W2].
    rewrite (pc_next_exec s1 (reg c1 15)), (pc_next_exec s2 (reg c2 15)) by congruence. cbn [fst snd].
    assert (Y : R true (mkst (mock_write_register (s_cpu s1) (Some 15) (wrap (reg c1 15 + i_size (s_self s1)))) (s_self s1))
                      (mkst (mock_write_register (s_cpu s2) (Some 15) (wrap (reg c2 15 + i_size (s_self s2)))) (s_self s2))).
    { split; [exact S|]. split; [exact KI|]. split; [exact M|]. intros k. specialize (E k). cbn [s_cpu]. unfold same_effect, content in *. rewrite !mock_write_get.
      assert (Z1 : i_size (s_self s1) = i_size i0) by (unfold i_size; rewrite (proj1 (proj2 (proj2 KI))); reflexivity).
      destruct (written 15 k) eqn:Wk.
      - assert (k = 15) by (unfold written in Wk; lia). subst k. right. right. rewrite <- S, Z1. split; [reflexivity|]. split; reflexivity.
      - destruct E as [E|E]; auto. }
    split; [exact Y|]. split; [exact Y|]. split; auto.
  Qed.
  Lemma same_weaken : forall A a (P : A -> Prop) m, same a false P m -> same a true P m.
  Proof.
    intros A a P m H s1 s2 K. destruct (H s1 s2 K) as [X Y]. split; [exact X|]. destruct (snd (m s1)), (snd (m s2)); try contradiction; auto. split; [exact X|exact (proj2 Y)].
  Qed.
  Lemma same_any : forall A a a' (P : A -> Prop) m, same a a' P m -> same a a' (fun _ => True) m.
  Proof.
    intros A a a' P m H s1 s2 K. destruct (H s1 s2 K) as [X Y]. split; [exact X|]. destruct (snd (m s1)), (snd (m s2)); try contradiction; auto.
    destruct Y as [Y [Z _]]. split; [exact Y|]. split; [exact Z|auto].
  Qed.
  Lemma rel_flags : forall a r x1 x2 v, (sets_flags i0 = true -> U 16 = true /\ x1 = x2) -> rel a a (fun _ _ => True) (set_flags r x1 v) (set_flags r x2 v).
  Proof.
    intros a r x1 x2 v H. unfold set_flags. eapply same_bind; [apply same_setflags|intros sf S].
    destruct (match sf with Always => true | Never => false | NotInITBlock => negb in_it_block end) eqn:ON; [|apply rel_ret; auto].
    destruct H as [X <-]; [apply S; destruct sf; [reflexivity|discriminate ON|reflexivity]|].
    eapply same_bind; [apply same_lift|intros n _]. eapply same_bind; [apply same_fset; exact X|intros _ _].
    eapply same_bind; [apply same_lift|intros z _]. eapply same_bind; [apply same_fset; exact X|intros _ _].
    apply (same_bind _ _ _ a _ (fun _ => True)); [destruct x1; [apply same_fset; exact X|apply same_ret; auto]|intros _ _].
    assert (Y : same a a (fun _ => True) (match v with Some b => fset FV b | None => ret tt end)) by (destruct v; [apply same_fset; exact X|apply same_ret; auto]).
    intros s1 s2 K. destruct (Y s1 s2 K) as [Y1 Y2]. split; [exact Y1|]. destruct (snd _), (snd _); try contradiction; auto. split; [exact (proj1 Y2)|auto].
  Qed.
  Lemma same_flags : forall a r x v, (sets_flags i0 = true -> U 16 = true) -> same a a (fun _ => True) (set_flags r x v).
  Proof. intros a r x v H. apply unit_same, rel_flags. auto. Qed.
  Lemma same_add_shared : forall a x b y c, (b = true -> has (a_imm32 (i_attrs i0)) = true) -> same a a (fun _ => True) (add_shared x b y c).
  Proof.
    intros. unfold add_shared. eapply same_bind; [apply same_lift|]. intros [[x' y'] r] _. eapply same_bind; [apply same_put_imm; assumption|intros _ _]. apply same_ret. auto.
  Qed.
  Lemma same_listed : forall a k, 0 <= k -> same a a (fun b => b = true -> exists l, a_registers (i_attrs i0) = Some l /\ is_listed py (bv l) k = true) (listed py k).
  Proof.
    intros a k K. unfold listed. eapply same_bind; [apply (same_attr _ _ a_registers); unfold skeleton; intros x y E; congruence|cbv beta; intros l L].
    destruct (bs_getitem l (KInt k)) as [x|e] eqn:E.
    - intros s1 s2 H. unfold mbind, lift, ret. cbn [fst snd]. split; [exact (R_adv _ _ _ H)|]. split; [exact H|]. split; [reflexivity|].
      intros T. exists l. split; [exact L|exact (listed_bit l k x py K E T)].
    - intros s1 s2 H. unfold mbind, lift, ret. cbn [fst snd]. split; [exact (R_adv _ _ _ H)|reflexivity].
  Qed.
End Rel.
