(** * What an instruction changes: lemmas *)
From Coq Require Import Lia ZifyBool.
From Verif Require Import BitstringModel SpecBits BitFacts BitOps BitMisc BitText HelpersModel SpecArm HelpFacts CpuModel SpecCpu CpuFacts CpuThms InsnModel ExecModel SpecExec SpecWhole SpecFrame.
Local Open Scope bool_scope.
Local Open Scope Z_scope.

(** The attributes that execution does not assign. *)
Definition skeleton (a : attrs) :=
  (a_d a, a_n a, a_m a, a_t a, (a_use_carry a, a_sub a, a_negate a, a_op a),
   (a_type a, a_shift_t a, a_shift_n a, a_rotation a, a_width a, a_signed a),
   (a_with_link a, a_cond a, a_pc_delta a, a_memsize a, a_index a, a_add a, a_wback a),
   (a_registers a, a_enable a, a_affectPri a, a_affectFault a, a_SYSm a)).

Lemma content_write : forall c r v k, content (write_register c r v) k =
  match register_name_to_index r with Some j => if written j k then Some (kept j (num_val v)) else content c k | None => content c k end.
Proof.
  intros c r v k. unfold content, write_register. destruct (register_name_to_index r) as [j|]; [apply mock_write_get|apply mock_write_none].
Qed.
Lemma write_memory_regs : forall c a v size c', write_memory c a v size = Ok c' -> c_regs c' = c_regs c.
Proof. intros c a v size c' E. exact (proj1 (proj2 (C35_separate_proof c (RIndex 0) v a v size)) _ E). Qed.
Lemma listed_bit : forall b k x py, 0 <= k -> bs_getitem b (KInt k) = Ok x -> bs_truthy py x = true -> is_listed py (bv b) k = true.
Proof.
  intros b k x py K E T. cbn [bs_getitem] in E. unfold bs_get_bit in E. replace (k <? 0) with false in E by lia.
  unfold py_shr in E. replace (k <? 0) with false in E by lia. cbn [bind] in E.
  destruct py; [|reflexivity]. cbn [is_listed].
  destruct (Z.testbit (bv b) k) eqn:B; [reflexivity|exfalso].
  assert (Z.land (Z.shiftr (bv b) k) 1 = 0) as Z0.
  { change 1 with (Z.ones 1). rewrite Z.land_ones by lia. change (2 ^ 1) with 2. rewrite <- Z.bit0_mod, Z.shiftr_spec by lia.
    rewrite Z.add_0_l, B. reflexivity. }
  rewrite Z0 in E. vm_compute in E. injection E as <-. discriminate T.
Qed.

Section Unary.
  Variables (py : pyver) (i0 : insn) (W : Z -> bool).
  Definition kind (s : st) : Prop := skeleton (i_attrs (s_self s)) = skeleton (i_attrs i0) /\ (sets_flags (s_self s) = true -> sets_flags i0 = true).
  Definition fr {A} (Q : A -> Prop) (m : comp A) : Prop := forall s, kind s ->
    kind (fst (m s)) /\
    (forall k, W k = false -> k <> 15 -> content (s_cpu (fst (m s))) k = content (s_cpu s) k) /\
    (forall a, snd (m s) = Ok a -> Q a).

  Lemma fr_bind : forall A B (Q : A -> Prop) (Q' : B -> Prop) m f, fr Q m -> (forall a, Q a -> fr Q' (f a)) -> fr Q' (mbind m f).
  Proof.
    intros A B Q Q' m f H1 H2 s K. destruct (H1 s K) as (K1 & F1 & V1). unfold mbind. destruct (m s) as [s' [a|e]] eqn:E; cbn [fst snd] in *.
    - destruct (H2 a (V1 a eq_refl) s' K1) as (K2 & F2 & V2). split; [exact K2|]. split; [|exact V2].
      intros k Wk N. rewrite F2, F1 by assumption. reflexivity.
    - split; [exact K1|]. split; [exact F1|]. discriminate.
  Qed.
  Lemma fr_pure : forall A (m : comp A), (forall s, fst (m s) = s) -> fr (fun _ => True) m.
  Proof. intros A m H s K. rewrite H. auto. Qed.
  Lemma fr_ret : forall A (Q : A -> Prop) a, Q a -> fr Q (ret a).
  Proof. intros A Q a H s K. cbn. split; [exact K|]. split; [reflexivity|]. intros b E. injection E as <-. exact H. Qed.
  Lemma fr_any : forall A (Q : A -> Prop) m, fr Q m -> fr (fun _ => True) m.
  Proof. intros A Q m H s K. destruct (H s K) as (X & Y & _). auto. Qed.
  Lemma fr_attr : forall A (f : attrs -> option A), (forall a b, skeleton a = skeleton b -> f a = f b) ->
    fr (fun x => f (i_attrs i0) = Some x) (attr f).
  Proof.
    intros A f H s K. cbn. split; [exact K|]. split; [reflexivity|]. intros a E. rewrite (H _ _ (proj1 K)) in E.
    destruct (f (i_attrs i0)); [injection E as <-; reflexivity|discriminate].
  Qed.
  Lemma fr_setflags : fr (fun sf => sets sf = true -> sets_flags i0 = true) (attr a_setflags).
  Proof.
    intros s K. cbn. split; [exact K|]. split; [reflexivity|]. intros a E S. apply (proj2 K). unfold sets_flags.
    destruct (a_setflags _) as [sf|]; [injection E as ->; exact S|discriminate].
  Qed.
  Lemma fr_put_imm : forall b v, fr (fun _ => True) (put_imm b v).
  Proof.
    intros [|] v; [|apply fr_pure; reflexivity]. intros s K. cbn [put_imm]. unfold setattr. cbn [fst snd s_cpu s_self]. split; [|auto].
    exact K.
  Qed.
  Lemma fr_no_flags : fr (fun _ => True) (setattr (with_setflags Never)).
  Proof. intros s K. unfold setattr. cbn [fst snd s_cpu s_self]. split; [|auto]. split; [exact (proj1 K)|discriminate]. Qed.
  Lemma fr_setc : forall f, (forall c c' k, f c = Ok c' -> W k = false -> k <> 15 -> content c' k = content c k) -> fr (fun _ => True) (setc f).
  Proof.
    intros f H s K. unfold setc. destruct (f (s_cpu s)) as [c|e] eqn:E; cbn [fst snd s_cpu s_self]; [|auto].
    split; [exact K|]. split; [|auto]. intros k Wk N. exact (H _ _ _ E Wk N).
  Qed.
  Lemma fr_rset : forall d v, (forall k, written d k = true -> W k = true \/ k = 15) -> fr (fun _ => True) (rset d v).
  Proof.
    intros d v H. apply fr_setc. intros c c' k E Wk N. unfold r_set, ri_set in E. destruct (15 <? 0 + d); [discriminate|]. injection E as <-.
    change (0 + d) with d. rewrite content_write. change (register_name_to_index (RIndex d)) with (Some d). cbv iota. destruct (written d k) eqn:X; [|reflexivity].
    destruct (H k X) as [Y|Y]; [congruence|contradiction].
  Qed.
  Lemma fr_write : forall r j f, register_name_to_index r = Some j -> (forall k, written j k = true -> W k = true \/ k = 15) ->
    fr (fun _ => True) (setc (fun c => Ok (write_register c r f))).
  Proof.
    intros r j v R H. apply fr_setc. intros c c' k E Wk N. injection E as <-. rewrite content_write, R. destruct (written j k) eqn:X; [|reflexivity].
    destruct (H k X) as [Y|Y]; [congruence|contradiction].
  Qed.
  Lemma fr_set_pc : forall v, fr (fun _ => True) (setc (fun c => Ok (set_pc c v))).
  Proof. intros v. apply (fr_write (RName "pc") 15); [reflexivity|]. intros k. unfold written. lia. Qed.
  Lemma fr_write_memory : forall a v n, fr (fun _ => True) (setc (fun c => write_memory c a v n)).
  Proof. intros a v n. apply fr_setc. intros c c' k E _ _. unfold content. rewrite (write_memory_regs _ _ _ _ _ E). reflexivity. Qed.
  Lemma fr_fset : forall f v, W 16 = true -> fr (fun _ => True) (fset f v).
  Proof.
    intros f v H. apply fr_setc. intros c c' k E Wk _. unfold apsr_set in E.
    destruct (get_xpsr c) as [x|]; [|discriminate]. cbn [bind] in E. destruct (bs_init _ _) as [b|]; [|discriminate]. cbn [bind] in E.
    destruct (bs_setitem _ _ _) as [y|]; [|discriminate]. cbn [bind] in E. injection E as <-. unfold set_xpsr. rewrite content_write.
    change (register_name_to_index (RName "xpsr")) with (Some 16). cbv iota. destruct (written 16 k) eqn:X; [|reflexivity].
    unfold written in X. replace k with 16 in Wk by lia. congruence.
  Qed.
  Lemma fr_next : fr (fun _ => True) pc_next.
  Proof.
    unfold pc_next, pc_add. eapply fr_bind; [apply fr_pure; reflexivity|intros n _]. eapply fr_bind; [apply fr_pure; reflexivity|intros p _].
    eapply fr_bind; [apply fr_pure; reflexivity|intros p' _]. apply fr_set_pc.
  Qed.
  Lemma fr_flags : forall r c v, (sets_flags i0 = true -> W 16 = true) -> fr (fun _ => True) (set_flags r c v).
  Proof.
    intros r c v H. unfold set_flags. eapply fr_bind; [apply fr_setflags|intros sf S].
    destruct (match sf with Always => true | Never => false | NotInITBlock => negb in_it_block end) eqn:ON; [|apply fr_pure; reflexivity].
    assert (X : W 16 = true) by (apply H, S; destruct sf; [reflexivity|discriminate ON|reflexivity]).
    eapply fr_bind; [apply fr_pure; reflexivity|intros n _]. eapply fr_bind; [apply fr_fset; exact X|intros _ _].
    eapply fr_bind; [apply fr_pure; reflexivity|intros z _]. eapply fr_bind; [apply fr_fset; exact X|intros _ _].
    eapply fr_bind; [destruct c; [apply fr_fset; exact X|apply fr_pure; reflexivity]|intros _ _].
    destruct v; [apply fr_fset; exact X|apply fr_pure; reflexivity].
  Qed.
  Lemma fr_add_shared : forall x b y c, fr (fun _ => True) (add_shared x b y c).
  Proof.
    intros. unfold add_shared. eapply fr_bind; [apply fr_pure; reflexivity|]. intros [[x' y'] r] _.
    eapply fr_bind; [apply fr_put_imm|intros _ _]. apply fr_pure. reflexivity.
  Qed.
  Lemma fr_listed : forall k, 0 <= k -> fr (fun b => b = true -> exists l, a_registers (i_attrs i0) = Some l /\ is_listed py (bv l) k = true) (listed py k).
  Proof.
    intros k K. unfold listed. eapply fr_bind; [apply (fr_attr _ a_registers); unfold skeleton; intros a b E; congruence|intros l L]. cbv beta in L.
    intros s KS. unfold mbind, lift, ret. destruct (bs_getitem l (KInt k)) as [x|e] eqn:E; cbn [fst snd]; (split; [exact KS|]); (split; [reflexivity|]); [|discriminate].
    intros b Eb T. injection Eb as <-. exists l. split; [exact L|]. exact (listed_bit l k x py K E T).
  Qed.
End Unary.

(** ** The bits of the status register below the flags *)
Lemma read_content : forall c r k x, register_name_to_index r = Some k -> content c k = Some x -> word x -> read_register c r = Ok (bits 32 x).
Proof. intros c r k x R E H. unfold read_register, mock_read_register. rewrite R. unfold content in E. rewrite E. cbn [bind]. apply init_default, H. Qed.
Lemma apsr_set_content : forall c f v c' x, content c 16 = Some x -> word x -> apsr_set c f v = Ok c' ->
  exists b, c' = mock_write_register c (Some 16) (put_bit x (flag_bit f) b).
Proof.
  intros c f v c' x X H E. pose proof (flag_bit_range f) as F. unfold word in H.
  unfold apsr_set, get_xpsr in E. rewrite (read_content c (RName "xpsr") 16 x eq_refl X H) in E. cbn [bind] in E.
  destruct (bs_init v (Some 1)) as [b0|e] eqn:Ev; [|discriminate]. cbn [bind] in E.
  assert (exists b, b0 = bitv b) as (b & ->).
  { exists (Z.odd (bv b0)). unfold bs_init in Ev. destruct (bs_raw v) as [[w0 v0]|]; [|discriminate]. cbn [bind] in Ev.
    rewrite finish_ok in Ev by lia. injection Ev as <-. unfold bits, bitv. f_equal. cbn [bv].
    change (2 ^ 1) with 2. rewrite Zmod_odd. destruct (Z.odd v0); reflexivity. }
  exists b. cbn [bs_setitem] in E.
  destruct (setbit_ok (bits 32 x) (flag_bit f) (VBits (bitv b)) (if b then 1 else 0)) as (r & E1 & W & Wd & B).
  { apply wf_bits; lia. } { cbn [bits bw]. lia. } { reflexivity. }
  rewrite E1 in E. cbn [bind] in E. injection E as <-. unfold set_xpsr, write_register. cbn [num_val].
  change (register_name_to_index (RName "xpsr")) with (Some 16). f_equal. unfold bs_unsigned.
  cbn [bits bw] in Wd, B. destruct W as (_ & W & _). rewrite Wd in W.
  apply (bits_ext _ _ 32); [exact W|apply put_bit_range; lia|].
  intros j Hj. rewrite put_bit_testbit by lia. unfold bit in B. rewrite B by lia. replace (flag_bit f <? 0) with false by lia.
  destruct (j =? flag_bit f); [destruct b; reflexivity|].
  cbn [bits bv]. rewrite testbit_mod by lia. replace (j <? 32) with true by lia. reflexivity.
Qed.
Definition low (x : Z) (c : cpu) : Prop := exists y, content c 16 = Some y /\ word y /\ forall b, 0 <= b < 28 -> Z.testbit y b = Z.testbit x b.
Definition lows {A} (x : Z) (m : comp A) : Prop := forall s, low x (s_cpu s) -> low x (s_cpu (fst (m s))).
Lemma lows_bind : forall x A B (m : comp A) (f : A -> comp B), lows x m -> (forall a, lows x (f a)) -> lows x (mbind m f).
Proof. intros x A B m f H1 H2 s H. specialize (H1 s H). unfold mbind. destruct (m s) as [s' [a|e]]; cbn [fst] in *; [apply H2|]; assumption. Qed.
Lemma lows_pure : forall x A (m : comp A), (forall s, fst (m s) = s) -> lows x m.
Proof. intros x A m H s L. rewrite H. exact L. Qed.
Lemma lows_setc : forall x f, (forall c c', f c = Ok c' -> low x c -> low x c') -> lows x (setc f).
Proof. intros x f H s L. unfold setc. destruct (f (s_cpu s)) eqn:E; [exact (H _ _ E L)|exact L]. Qed.
Lemma low_write : forall x r j v c, register_name_to_index r = Some j -> j <> 16 -> low x c -> low x (write_register c r v).
Proof.
  intros x r j v c R N (y & Y & L). exists y. split; [|exact L]. rewrite content_write, R. replace (written j 16) with false; [exact Y|].
  unfold written. lia.
Qed.
Lemma lows_rset : forall x d v, lows x (rset d v).
Proof.
  intros x d v. apply lows_setc. intros c c' E L. unfold r_set, ri_set in E. destruct (15 <? 0 + d) eqn:D; [discriminate|]. injection E as <-.
  apply (low_write x _ (0 + d)); [reflexivity|lia|exact L].
Qed.
Lemma lows_fset : forall x f v, lows x (fset f v).
Proof.
  intros x f v. apply lows_setc. intros c c' E (y & Y & Wy & L). destruct (apsr_set_content c f _ c' y Y Wy E) as (b & ->).
  pose proof (flag_bit_range f). unfold word in Wy.
  exists (put_bit y (flag_bit f) b). split; [unfold content; rewrite mock_write_get; reflexivity|]. split; [apply put_bit_range; lia|].
  intros k K. rewrite put_bit_testbit by lia. replace (k =? flag_bit f) with false by lia. apply L, K.
Qed.
Lemma lows_memory : forall x a v n, lows x (setc (fun c => write_memory c a v n)).
Proof. intros x a v n. apply lows_setc. intros c c' E L. unfold low, content in *. rewrite (write_memory_regs _ _ _ _ _ E). exact L. Qed.
