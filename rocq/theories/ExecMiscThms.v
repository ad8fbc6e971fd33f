(** * Effect of branches, byte reversal, special registers *)
From Coq Require Import Lia ZifyBool.
From Verif Require Import BitstringModel SpecBits BitFacts BitOps BitMisc BitThms HelpersModel SpecArm HelpFacts CpuModel SpecCpu
  CpuFacts CpuThms InsnModel ExecModel SpecExec ExecFacts ExecDataThms ExecArithThms SpecIsa.
(*@imports
From Coq Require Import Lia ZifyBool.
From Verif Require Import BitstringModel SpecBits BitFacts BitOps BitMisc BitThms HelpersModel SpecArm HelpFacts CpuModel SpecCpu
  CpuFacts CpuThms InsnModel ExecModel SpecExec ExecFacts ExecDataThms ExecArithThms ExecMiscThms SpecIsa.
Local Open Scope bool_scope.
Local Open Scope Z_scope.
@*)
Local Open Scope bool_scope.
Local Open Scope Z_scope.

Lemma next_only : forall c i, regs_ok c -> exists c', pc_next (mkst c i) = (mkst c' i, Ok tt) /\ c_mem c' = c_mem c /\
  forall k, core k -> reg c' k = advance (reg c) (i_size i) k.
Proof.
  intros c i H. eexists. split; [apply pc_next_run; assumption|]. split; [apply mem_W|]. intros. apply reg_W.
Qed.
(*@doc C54: hints, barriers, bkpt, svc, udf -- and msr -- only move the pc.  That msr does not write
    the special register is refuted below. @*)
Lemma C54_hint_proof : forall py c i k, regs_ok c -> k = Instruction \/ k = MoveToSpecial -> i_klass i = k ->
  runs py c i (advance (reg c) (i_size i)) i.
Proof.
  intros py c i k H Hk K. unfold runs, execute. rewrite K. destruct Hk; subst k; cbn [eval]; apply next_only; assumption.
Qed.
(*@ex
Example C54_hint_ex :
  let i := an_insn Instruction [Imm 3] false in
  cpu_ok ex_state /\
  reg_after Py2 ex_state i 15 = 36 /\
  reg_after Py2 ex_state i 0 = 7.
Proof. split; [exact ex_state_ok|]. vm_compute. repeat split; reflexivity. Qed.
@*)

Lemma wreg_primask : forall v, wreg "primask" v = setc (fun c => Ok (W c (-1) v)).
Proof. reflexivity. Qed.
Lemma wreg_faultmask : forall v, wreg "faultmask" v = setc (fun c => Ok (W c (-3) v)).
Proof. reflexivity. Qed.

(*@doc C54, cps: exactly the selected masks. @*)
Lemma C54_cps_proof : forall py c i en pri flt, regs_ok c ->
  is_insn i ChangeProcessorState [En en; Pri pri; Flt flt] ->
  let v := if en then 0 else 1 in
  let f1 := if pri then set (reg c) (-1) v else reg c in
  let f2 := if flt then set f1 (-3) v else f1 in
  runs py c i (advance f2 (i_size i)) i.
Proof.
  intros py c i en pri flt H [K A] v f1 f2. begin_exec K A. unfold eval_ChangeProcessorState.
  at_attr. cbv zeta. fold v. at_attr. rewrite wreg_primask, wreg_faultmask.
  assert (V : word v) by (unfold v, word; destruct en; lia).
  set (c1 := if pri then W c (-1) v else c).
  assert (S1 : forall B (f : unit -> comp B), mbind (if pri then setc (fun c => Ok (W c (-1) v)) else ret tt) f (mkst c i) = f tt (mkst c1 i))
    by (intros; unfold c1; destruct pri; reflexivity).
  rewrite S1. at_attr. set (c2 := if flt then W c1 (-3) v else c1).
  assert (S2 : forall B (f : unit -> comp B), mbind (if flt then setc (fun c => Ok (W c (-3) v)) else ret tt) f (mkst c1 i) = f tt (mkst c2 i))
    by (intros; unfold c2; destruct flt; reflexivity).
  rewrite S2. assert (H1 : regs_ok c1) by (unfold c1; destruct pri; [apply ok_W|]; assumption).
  assert (H2 : regs_ok c2) by (unfold c2; destruct flt; [apply ok_W|]; assumption).
  assert (R1 : forall k, core k -> reg c1 k = f1 k) by (intros; unfold c1, f1; destruct pri; [apply reg_W|reflexivity]).
  assert (R2 : forall k, core k -> reg c2 k = f2 k).
  { intros k Ck. unfold c2, f2. destruct flt; [rewrite reg_W; apply set_ext; assumption|apply R1; assumption]. }
  destruct (next_only c2 i H2) as (c' & E & M' & G). exists c'. split; [exact E|]. split.
  - rewrite M'. unfold c2, c1. destruct flt, pri; rewrite ?mem_W; reflexivity.
  - intros k Ck. rewrite (G k Ck). apply advance_ext; assumption.
Qed.
(*@ex
Example C54_cps_ex :
  let i := an_insn ChangeProcessorState [En false; Pri true; Flt false] false in
  cpu_ok ex_state /\
  reg_after Py2 ex_state i (-1) = 1 /\
  reg_after Py2 ex_state i (-3) = 0 /\
  reg_after Py2 ex_state i 15 = 36.
Proof. split; [exact ex_state_ok|]. vm_compute. repeat split; reflexivity. Qed.
@*)

(** ** Branches *)
Lemma flag_is_ok : forall c fl k, regs_ok c -> 0 <= k ->
  flag_is c fl k = Ok (b2z (Z.testbit (reg c 16) (flag_bit fl)) =? k).
Proof.
  intros c fl k H Hk. unfold flag_is. rewrite apsr_get_ok by assumption. cbn [bind].
  destruct (C08_int_proof (bitv (Z.testbit (reg c 16) (flag_bit fl))) k) as [E _]; [destruct (Z.testbit _ _); vm_compute; intuition congruence|].
  destruct (E Hk) as [E1 _]. rewrite E1. reflexivity.
Qed.
Lemma flag_is_1 : forall c fl, regs_ok c -> flag_is c fl 1 = Ok (Z.testbit (reg c 16) (flag_bit fl)).
Proof. intros. rewrite flag_is_ok by (assumption || lia). destruct (Z.testbit _ _); reflexivity. Qed.
Lemma flag_is_0 : forall c fl, regs_ok c -> flag_is c fl 0 = Ok (negb (Z.testbit (reg c 16) (flag_bit fl))).
Proof. intros. rewrite flag_is_ok by (assumption || lia). destruct (Z.testbit _ _); reflexivity. Qed.
Lemma nv_equal_ok : forall c, regs_ok c -> nv_equal c = Ok (Bool.eqb (flag_N (reg c 16)) (flag_V (reg c 16))).
Proof.
  intros c H. unfold nv_equal. rewrite !apsr_get_ok by assumption. cbn [bind flag_bit]. unfold flag_N, flag_V.
  destruct (Z.testbit (reg c 16) 31), (Z.testbit (reg c 16) 28); reflexivity.
Qed.
Lemma nv_differ_ok : forall c, regs_ok c -> nv_differ c = Ok (xorb (flag_N (reg c 16)) (flag_V (reg c 16))).
Proof.
  intros c H. unfold nv_differ. rewrite !apsr_get_ok by assumption. cbn [bind flag_bit]. unfold flag_N, flag_V.
  destruct (Z.testbit (reg c 16) 31), (Z.testbit (reg c 16) 28); reflexivity.
Qed.
Lemma condition_ok : forall c k, regs_ok c -> 0 <= k <= 15 -> condition_expr k c = Ok (holds_in k (reg c 16)).
Proof.
  intros c k H Hk. unfold condition_expr, holds_in, condition_holds.
  rewrite !flag_is_1, !flag_is_0, nv_equal_ok, nv_differ_ok by assumption. cbn [flag_bit].
  unfold flag_N, flag_Z, flag_C, flag_V, and_then, or_else. cbn [bind].
  assert (C : k = 0 \/ k = 1 \/ k = 2 \/ k = 3 \/ k = 4 \/ k = 5 \/ k = 6 \/ k = 7 \/ k = 8 \/ k = 9 \/ k = 10 \/ k = 11 \/ k = 12 \/ k = 13 \/ k = 14 \/ k = 15) by lia.
  repeat (destruct C as [-> |C]; [cbn [Z.eqb Pos.eqb]; repeat match goal with |- context [Z.testbit ?x ?n] => destruct (Z.testbit x n) end; reflexivity|]).
  subst k. reflexivity.
Qed.
Lemma condition_bad : forall c k, ~ 0 <= k <= 15 -> condition_expr k c = Err KeyError.
Proof.
  intros c k Hk. unfold condition_expr.
  repeat match goal with |- context [k =? ?n] => replace (k =? n) with false by lia end. reflexivity.
Qed.

Lemma clear_bit0 : forall v, word v -> bs_setitem (bits 32 v) (KInt 0) (VInt 0) = Ok (bits 32 (v - v mod 2)).
Proof.
  intros v V. destruct (C05_bit_proof (bits 32 v) 0 (VInt 0) 0 (wf32 v) ltac:(cbn; lia) (or_introl eq_refl)) as (r & E & Wr & Br & T).
  rewrite E. f_equal. apply wf_bit_ext; [assumption|apply wf32|assumption|]. rewrite Br. intros j J. rewrite T by assumption.
  change (from_end (bw (bits 32 v)) 0) with 0. change (Z.odd 0) with false. cbn [bw bits] in J.
  assert (Wv : word (v - v mod 2)) by (unfold word in *; pose proof (Z.mod_pos_bound v 2); pose proof (Z.mod_le v 2); lia).
  unfold bit. rewrite !bv_word by assumption.
  destruct (j =? 0) eqn:Z0.
  - apply Z.eqb_eq in Z0. subst. rewrite Z.bit0_odd. rewrite Z.odd_sub, (Zmod_odd v). destruct (Z.odd v); reflexivity.
  - replace j with (Z.succ (j - 1)) by lia.
    replace (v - v mod 2) with (2 * (v / 2)) by (pose proof (Z.div_mod v 2); lia).
    rewrite Z.testbit_even_succ by lia. change (v / 2) with (v / 2 ^ 1). rewrite Z.div_pow2_bits by lia. reflexivity.
Qed.
Lemma or_one : forall v, word v -> bs_or (bits 32 v) (VInt 1) = Ok (bits 32 (Z.lor v 1)).
Proof. intros v V. rewrite (or_ok _ _ 1) by (apply wf32 || reflexivity). rewrite bv_word by assumption. reflexivity. Qed.

(*@doc C47: when the condition does not hold the pc moves to the next instruction. @*)
Lemma C47_not_taken_proof : forall py c i l k, regs_ok c -> 0 <= k <= 15 ->
  i_klass i = Branch -> i_attrs i = attributes l -> In (Cond k) l -> a_cond (attributes l) = Some k ->
  holds_in k (reg c 16) = false -> runs py c i (advance (reg c) (i_size i)) i.
Proof.
  intros py c i l k H Hk K A _ E Hc. begin_exec K A. unfold eval_Branch.
  rewrite (bind_attr _ _ a_cond k) by (rewrite A; exact E).
  rewrite (bind_getc _ _ _ _ _ _ _ (condition_ok c k H Hk)). rewrite Hc. apply next_only; assumption.
Qed.
(*@ex
Example C47_not_taken_ex :
  let i := an_insn Branch [Link false; Cond 0; Delta 0; Imm 100] false in
  cpu_ok ex_state /\
  reg_after Py2 ex_state i 15 = 36.
Proof. split; [exact ex_state_ok|]. vm_compute. repeat split; reflexivity. Qed.
@*)

Lemma link_run : forall c i (link : bool) delta B (f : unit -> comp B), regs_ok c -> exists c1,
  mbind (if link then do l <- lift (bs_or (bits 32 (next_pc (reg c) delta)) (VInt 1)); setc (fun c => Ok (set_lr c (NBits l))) else ret tt) f (mkst c i)
  = f tt (mkst c1 i) /\ regs_ok c1 /\ c_mem c1 = c_mem c /\ forall k, reg c1 k = linked link (reg c) delta k.
Proof.
  intros c i link delta B f H. destruct link.
  - exists (W c 14 (Z.lor (next_pc (reg c) delta) 1)).
    assert (V : word (next_pc (reg c) delta)) by apply word_wrap.
    assert (V1 : word (Z.lor (next_pc (reg c) delta) 1)) by (apply word_lor; [assumption|unfold word; lia]).
    split; [|split; [apply ok_W; assumption|split; [apply mem_W|intros; apply reg_W]]].
    rewrite bind_assoc. rewrite (bind_lift _ _ _ _ _ _ (or_one _ V)). rewrite (bind_setc _ _ (W c 14 (Z.lor (next_pc (reg c) delta) 1))); [reflexivity|].
    rewrite set_lr_W. cbn [num_val]. unfold bs_unsigned. rewrite bv_word by assumption. reflexivity.
  - exists c. split; [reflexivity|]. split; [assumption|]. split; [reflexivity|]. intros; reflexivity.
Qed.
Lemma next_run : forall c delta, regs_ok c -> bs_add (bits 32 (reg c 15 + 4)) (VInt delta) = Ok (bits 32 (next_pc (reg c) delta)).
Proof.
  intros c delta H. rewrite <- (bits_wrap (reg c 15 + 4)). rewrite add_int by apply word_wrap. f_equal.
  unfold next_pc. rewrite bits_wrap. rewrite <- bits_wrap. rewrite <- (bits_wrap (reg c 15 + 4 + delta)). f_equal.
  unfold wrap. rewrite Zplus_mod_idemp_l. reflexivity.
Qed.
(*@doc C47, bx and blx.  For blx lr the target is read after lr was overwritten. @*)
Lemma C47_register_proof : forall py c i m link k delta, regs_ok c -> gpr m -> 0 <= k <= 15 ->
  is_insn i Branch [M m; Link link; Cond k; Delta delta] ->
  let f := linked link (reg c) delta in
  runs py c i (if holds_in k (reg c 16) then set f 15 (f m - f m mod 2) else advance (reg c) (i_size i)) i.
Proof.
  intros py c i m link k delta H Gm Hk [K A] f. destruct (holds_in k (reg c 16)) eqn:Hc;
    [|eapply C47_not_taken_proof; try eassumption; [right; right; left; reflexivity|reflexivity]].
  begin_exec K A. unfold eval_Branch. at_attr. rewrite (bind_getc _ _ _ _ _ _ _ (condition_ok c k H Hk)). rewrite Hc.
  rewrite (bind_getc _ _ _ _ _ _ _ (pc4_run c H)). at_attr. rewrite (bind_lift _ _ _ _ _ _ (next_run c delta H)). at_attr.
  match goal with |- context [mbind (if link then _ else _) ?g _] => destruct (link_run c i link delta _ g H) as (c1 & -> & H1 & M1 & R1) end.
  at_has. at_attr. rewrite bind_rget by assumption. rewrite (bind_lift _ _ _ _ _ _ (init_copy _ (wf32 _))).
  pose proof (word_gpr c1 m H1 Gm) as V. rewrite (bind_lift _ _ _ _ _ _ (clear_bit0 _ V)).
  exists (W c1 15 (f m - f m mod 2)). split; [|split; [rewrite mem_W; assumption|]].
  - unfold setc. cbn [s_cpu s_self]. rewrite set_pc_W. cbn [num_val]. unfold bs_unsigned.
    assert (word (reg c1 m - reg c1 m mod 2)) by (unfold word in *; pose proof (Z.mod_pos_bound (reg c1 m) 2); pose proof (Z.mod_le (reg c1 m) 2); lia).
    rewrite bv_word by assumption. rewrite (R1 m). reflexivity.
  - intros j J. rewrite reg_W. apply set_ext; [|assumption]. intros; apply R1.
Qed.
(*@ex
Example C47_register_ex :
  let i := an_insn Branch [M 3; Link true; Cond 14; Delta (-2)] false in
  cpu_ok ex_state /\
  reg_after Py2 ex_state i 15 = 16 /\
  reg_after Py2 ex_state i 14 = 37.
Proof. split; [exact ex_state_ok|]. vm_compute. repeat split; reflexivity. Qed.
@*)
(*@doc C47, b and bl as the object stands: the immediate is added to pc + 4.  For backward
    branches the decoder leaves another number in the object (C47_backward_refuted). @*)
Lemma C47_immediate_proof : forall py c i v link k delta, regs_ok c -> word v -> 0 <= k <= 15 ->
  is_insn i Branch [Link link; Cond k; Delta delta; Imm v] ->
  runs py c i (if holds_in k (reg c 16) then set (linked link (reg c) delta) 15 (wrap (reg c 15 + 4 + delta + v))
               else advance (reg c) (i_size i)) i.
Proof.
  intros py c i v link k delta H Wv Hk [K A]. destruct (holds_in k (reg c 16)) eqn:Hc;
    [|eapply C47_not_taken_proof; try eassumption; [right; left; reflexivity|reflexivity]].
  begin_exec K A. unfold eval_Branch. at_attr. rewrite (bind_getc _ _ _ _ _ _ _ (condition_ok c k H Hk)). rewrite Hc.
  rewrite (bind_getc _ _ _ _ _ _ _ (pc4_run c H)). at_attr. rewrite (bind_lift _ _ _ _ _ _ (next_run c delta H)). at_attr.
  match goal with |- context [mbind (if link then _ else _) ?g _] => destruct (link_run c i link delta _ g H) as (c1 & -> & H1 & M1 & R1) end.
  at_has. at_attr. rewrite (bind_lift _ _ _ _ _ _ (add_bits (next_pc (reg c) delta) _ (word_wrap _) Wv)).
  exists (W c1 15 (wrap (reg c 15 + 4 + delta + v))). split; [|split; [rewrite mem_W; assumption|]].
  - unfold setc. cbn [s_cpu s_self]. rewrite set_pc_W. cbn [num_val]. unfold bs_unsigned. rewrite bv_wrap.
    unfold next_pc, wrap. rewrite Zplus_mod_idemp_l. reflexivity.
  - intros j J. rewrite reg_W. apply set_ext; [|assumption]. intros; apply R1.
Qed.
(*@ex
Example C47_immediate_ex :
  let i := an_insn Branch [Link true; Cond 14; Delta 0; Imm 0xfffffff0] true in
  cpu_ok ex_state /\
  reg_after Py2 ex_state i 15 = 22 /\
  reg_after Py2 ex_state i 14 = 39.
Proof. split; [exact ex_state_ok|]. vm_compute. repeat split; reflexivity. Qed.
@*)

(** ** Byte reversal *)
Lemma move_slice_ok : forall r x a b c, wf r -> bw r = 32 -> wf x -> bw x = 32 -> 0 <= a -> 0 <= c -> a <= b <= 32 -> c + (b - a) <= 32 ->
  exists r', move_slice r x a b c (c + (b - a)) = Ok r' /\ wf r' /\ bw r' = 32 /\
  forall j, 0 <= j < 32 -> bit r' j = if (a <=? j) && (j <? b) then bit x (j - a + c) else bit r j.
Proof.
  intros r x a b c Wr Br Wx Bx Ha Hc Hb Hd. unfold move_slice.
  rewrite C04_simple_slice_proof by (assumption || lia). cbn [bind].
  destruct (C05_slice_proof r (sl a b) (VBits (bits (c + (b - a) - c) (bv x / 2 ^ c))) (bits (c + (b - a) - c) (bv x / 2 ^ c)) a b Wr) as (r' & E & Wr' & Br' & T).
  - left. reflexivity.
  - apply slice_bounds_sl; lia.
  - lia.
  - exists r'. rewrite E. split; [reflexivity|]. split; [assumption|]. split; [congruence|].
    intros j J. rewrite T by lia. destruct ((a <=? j) && (j <? b)) eqn:I; [|reflexivity].
    unfold bit. rewrite bits_bv. rewrite testbit_mod by lia. replace (j - a <? c + (b - a) - c) with true by lia.
    rewrite Z.div_pow2_bits by lia. reflexivity.
Qed.

Lemma byte_bits : forall u v k m, 0 <= k -> 0 <= m -> (forall j, 0 <= j < 8 -> Z.testbit u (8 * k + j) = Z.testbit v (8 * m + j)) ->
  byte u k = byte v m.
Proof.
  intros u v k m Hk Hm H. unfold byte. change 256 with (2 ^ 8). rewrite <- !Z.pow_mul_r by lia.
  apply Z.bits_inj'. intros j J. rewrite !testbit_mod by lia. destruct (j <? 8) eqn:L; [|reflexivity]. cbn [andb].
  rewrite !Z.div_pow2_bits by lia. rewrite Z.add_comm, (Z.add_comm j). apply H. lia.
Qed.
Lemma word_bytes : forall v, word v -> v = byte v 0 + 256 * byte v 1 + 65536 * byte v 2 + 16777216 * byte v 3.
Proof.
  intros v V. unfold byte, word in *. change (256 ^ 0) with 1. change (256 ^ 1) with 256. change (256 ^ 2) with 65536. change (256 ^ 3) with 16777216.
  change (2 ^ 32) with 4294967296 in V. rewrite Z.div_1_r.
  pose proof (Z.div_mod v 256). pose proof (Z.div_mod (v / 256) 256). pose proof (Z.div_mod (v / 65536) 256).
  pose proof (Z.div_div v 256 256). pose proof (Z.div_div v 65536 256). change (256 * 256) with 65536 in *. change (65536 * 256) with 16777216 in *.
  assert (v / 16777216 < 256) by (apply Z.div_lt_upper_bound; lia). assert (0 <= v / 16777216) by (apply Z.div_pos; lia).
  rewrite (Z.mod_small (v / 16777216)) by lia. lia.
Qed.
Lemma byte_range : forall v k, 0 <= byte v k < 256.
Proof. intros. apply Z.mod_pos_bound. lia. Qed.
Lemma reversed_word : forall w sgn v, word (byte_reversed w sgn v).
Proof.
  intros w sgn v. unfold byte_reversed. destruct (w =? 4); [|destruct sgn; [apply word_wrap|]];
    pose proof (byte_range v 0); pose proof (byte_range v 1); pose proof (byte_range v 2); pose proof (byte_range v 3);
    unfold word; change (2 ^ 32) with 4294967296; lia.
Qed.
Lemma wf_word : forall r, wf r -> bw r = 32 -> word (bv r) /\ r = bits 32 (bv r).
Proof.
  intros r Wr Br. pose proof Wr as (_ & V & _). rewrite Br in V. split; [exact V|].
  rewrite <- Br. apply wf_eq_bits. assumption.
Qed.
Lemma rev_bytes : forall r v (p : Z -> Z), wf r -> bw r = 32 ->
  (forall k, 0 <= k < 4 -> 0 <= p k /\ forall j, 0 <= j < 8 -> bit r (8 * k + j) = Z.testbit v (8 * p k + j)) ->
  r = bits 32 (byte v (p 0) + 256 * byte v (p 1) + 65536 * byte v (p 2) + 16777216 * byte v (p 3)).
Proof.
  intros r v p Wr Br H. destruct (wf_word r Wr Br) as [V E]. rewrite E at 1. f_equal.
  rewrite (word_bytes (bv r) V).
  rewrite (byte_bits (bv r) v 0 (p 0)), (byte_bits (bv r) v 1 (p 1)), (byte_bits (bv r) v 2 (p 2)), (byte_bits (bv r) v 3 (p 3));
    [reflexivity|..]; try lia; apply H; lia.
Qed.
Ltac step_slice a b c :=
  match goal with
  | |- context [move_slice ?r ?x a b c _] =>
    let E := fresh in let r' := fresh "r" in let Wr := fresh in let Br := fresh in let T := fresh "T" in
    destruct (move_slice_ok r x a b c) as (r' & E & Wr & Br & T);
    [assumption || apply wf32|assumption || reflexivity|assumption || apply wf32|assumption || reflexivity|lia|lia|lia|lia|];
    change (c + (b - a)) with (ltac:(let z := eval compute in (c + (b - a)) in exact z)) in E; rewrite E; cbn [bind]
  end.
Ltac pick := repeat match goal with |- context [(?a <=? ?j) && (?j <? ?b)] =>
  first [replace ((a <=? j) && (j <? b)) with true by lia | replace ((a <=? j) && (j <? b)) with false by lia] end.

Lemma rev4 : forall v, word v ->
  (let* r := move_slice (bits 32 0) (bits 32 v) 24 32 0 8 in
   let* r := move_slice r (bits 32 v) 16 24 8 16 in
   let* r := move_slice r (bits 32 v) 8 16 16 24 in
   move_slice r (bits 32 v) 0 8 24 32) = Ok (bits 32 (byte_reversed 4 false v)).
Proof.
  intros v V. step_slice 24 32 0. step_slice 16 24 8. step_slice 8 16 16. step_slice 0 8 24. f_equal.
  unfold byte_reversed. change (4 =? 4) with true. cbv iota.
  apply (rev_bytes _ v (fun k => 3 - k)); [assumption|assumption|].
  intros k Hk. split; [lia|]. intros j J.
  assert (C : k = 0 \/ k = 1 \/ k = 2 \/ k = 3) by lia. destruct C as [-> |[-> |[-> | ->]]];
    rewrite T2 by lia; pick; try (rewrite T1 by lia; pick); try (rewrite T0 by lia; pick); try (rewrite T by lia; pick);
    unfold bit; rewrite bv_word by assumption; f_equal; lia.
Qed.
Lemma rev16 : forall v, word v ->
  (let* r := move_slice (bits 32 0) (bits 32 v) 24 32 16 24 in
   let* r := move_slice r (bits 32 v) 16 24 24 32 in
   let* r := move_slice r (bits 32 v) 8 16 0 8 in
   move_slice r (bits 32 v) 0 8 8 16) = Ok (bits 32 (byte_reversed 2 false v)).
Proof.
  intros v V. step_slice 24 32 16. step_slice 16 24 24. step_slice 8 16 0. step_slice 0 8 8. f_equal.
  unfold byte_reversed. change (2 =? 4) with false. cbv iota.
  apply (rev_bytes _ v (fun k => if k =? 0 then 1 else if k =? 1 then 0 else if k =? 2 then 3 else 2)); [assumption|assumption|].
  intros k Hk. split; [destruct (k =? 0), (k =? 1), (k =? 2); lia|]. intros j J.
  assert (C : k = 0 \/ k = 1 \/ k = 2 \/ k = 3) by lia. destruct C as [-> |[-> |[-> | ->]]]; cbn [Z.eqb Pos.eqb];
    rewrite T2 by lia; pick; try (rewrite T1 by lia; pick); try (rewrite T0 by lia; pick); try (rewrite T by lia; pick);
    unfold bit; rewrite bv_word by assumption; f_equal; lia.
Qed.
Lemma revsh : forall v, word v ->
  (let* lo := bs_getitem (bits 32 v) (KSlice (sl 0 8)) in
   let* ext := bs_sign_extend lo 24 in
   let* r := bs_setitem (bits 32 0) (KSlice (sl 8 32)) (VBits ext) in
   move_slice r (bits 32 v) 0 8 8 16) = Ok (bits 32 (byte_reversed 2 true v)).
Proof.
  intros v V. rewrite C04_simple_slice_proof by (try apply wf32; cbn; lia). rewrite bv_word by assumption. cbn [bind].
  change (2 ^ 0) with 1. rewrite Z.div_1_r. change (8 - 0) with 8.
  rewrite sign_extend_ok by (try (apply wf_bits; lia); cbn; lia). cbn [bind]. rewrite bits_bw, bits_bv, twos_mod by lia.
  set (t := twos 8 v).
  destruct (C05_slice_proof (bits 32 0) (sl 8 32) (VBits (bits 24 t)) (bits 24 t) 8 32 (wf32 0) (or_introl eq_refl)
    (slice_bounds_sl 8 32 32 ltac:(lia) ltac:(lia)) ltac:(lia)) as (r1 & E1 & W1 & B1 & T1).
  rewrite E1. cbn [bind]. step_slice 0 8 8. f_equal. destruct (wf_word r H0 H1) as [Vr Er]. rewrite Er. f_equal.
  cbn [bw bits] in T1.
  assert (L : bv r mod 2 ^ 8 = byte v 1).
  { unfold byte. change (256 ^ 1) with (2 ^ 8). change 256 with (2 ^ 8). apply Z.bits_inj'. intros j J.
    rewrite !testbit_mod by lia. destruct (j <? 8) eqn:Lj; [|reflexivity]. cbn [andb]. rewrite Z.div_pow2_bits by lia.
    change (bit r j = Z.testbit v (j + 8)). rewrite T by lia. pick. unfold bit. rewrite bv_word by assumption. f_equal. lia. }
  assert (U : bv r / 2 ^ 8 = t mod 2 ^ 24).
  { apply Z.bits_inj'. intros j J. rewrite testbit_mod, Z.div_pow2_bits by lia.
    destruct (j <? 24) eqn:Lj; [|rewrite word_testbit by (assumption || lia); reflexivity]. cbn [andb].
    change (bit r (j + 8) = Z.testbit t j). rewrite T by lia. pick. rewrite T1 by lia. pick. unfold bit. rewrite bits_bv, testbit_mod by lia.
    replace (j + 8 - 8) with j by lia. rewrite Lj. reflexivity. }
  unfold byte_reversed. change (2 =? 4) with false. cbv iota. unfold sext.
  assert (TW : twos 16 (byte v 1 + 256 * byte v 0) = byte v 1 + 256 * t).
  { unfold t, twos. cbv zeta. rewrite (Z.mod_small (byte v 1 + 256 * byte v 0)) by (pose proof (byte_range v 0); pose proof (byte_range v 1); change (2 ^ 16) with 65536; lia).
    replace (v mod 2 ^ 8) with (byte v 0) by (unfold byte; change (256 ^ 0) with 1; rewrite Z.div_1_r; reflexivity).
    pose proof (byte_range v 0). pose proof (byte_range v 1).
    change (2 ^ (16 - 1)) with 32768. change (2 ^ 16) with 65536. change (2 ^ (8 - 1)) with 128. change (2 ^ 8) with 256.
    cbv zeta. destruct (byte v 1 + 256 * byte v 0 <? 32768) eqn:E2; destruct (byte v 0 <? 128) eqn:E3; lia. }
  rewrite TW. rewrite (Z.div_mod (bv r) (2 ^ 8)) by discriminate. rewrite L, U. unfold wrap.
  change (2 ^ 8) with 256. pose proof (byte_range v 1).
  pose proof (Z.div_mod t (2 ^ 24) ltac:(discriminate)) as DM.
  replace (byte v 1 + 256 * t) with ((256 * (t mod 2 ^ 24) + byte v 1) + (t / 2 ^ 24) * 2 ^ 32)
    by (rewrite DM at 3; change (2 ^ 32) with (256 * 2 ^ 24); ring).
  rewrite Z.mod_add by discriminate. rewrite (Z.mod_small (256 * (t mod 2 ^ 24) + byte v 1)); [reflexivity|].
  pose proof (Z.mod_pos_bound t (2 ^ 24) ltac:(reflexivity)). change (2 ^ 32) with (256 * 2 ^ 24). lia.
Qed.

(*@doc C51, rev, rev16, revsh. @*)
Lemma C51_byte_reverse_proof : forall py c i d m w sgn, regs_ok c -> gpr d -> gpr m -> w = 4 \/ w = 2 ->
  is_insn i ByteReverse [D d; M m; Wid w; Sgn sgn] ->
  let r := byte_reversed w sgn (reg c m) in
  runs py c i (advance (set (reg c) d r) (i_size i)) i.
Proof.
  intros py c i d m w sgn H Gd Gm Hw [K A] r. begin_exec K A. unfold eval_ByteReverse.
  pose proof (word_gpr c m H Gm) as V.
  rewrite (bind_lift _ _ _ _ _ _ (zeros_ok 32 ltac:(lia))). at_attr. at_get. at_attr.
  destruct Hw; subst w.
  - change (4 =? 4) with true. cbv iota. rewrite (bind_lift _ _ _ _ _ _ (rev4 _ V)). at_attr.
    apply (finish_plain c i d r); try assumption. apply reversed_word.
  - change (2 =? 4) with false. change (2 =? 2) with true. cbv iota. rewrite bind_assoc. at_attr.
    destruct sgn; cbn [negb].
    + rewrite (bind_lift _ _ _ _ _ _ (revsh _ V)). at_attr. apply (finish_plain c i d r); try assumption. apply reversed_word.
    + rewrite (bind_lift _ _ _ _ _ _ (rev16 _ V)). at_attr. apply (finish_plain c i d r); try assumption. apply reversed_word.
Qed.
(*@ex
Example C51_byte_reverse_ex :
  let i := an_insn ByteReverse [D 0; M 4; Wid 4; Sgn false] false in
  cpu_ok ex_state /\
  reg_after Py2 ex_state i 0 = 0x78563412.
Proof. split; [exact ex_state_ok|]. vm_compute. repeat split; reflexivity. Qed.
@*)

(** ** Special registers *)
Lemma privileged_ok : forall c, regs_ok c -> is_privileged c = Ok (privileged (reg c)).
Proof.
  intros c H. unfold is_privileged, get_control. rewrite (read_index c _ (-4)) by (assumption || reflexivity || (unfold core; lia)).
  cbn [bind]. destruct (C04_index_proof (bits 32 (reg c (-4))) 0 (wf32 _)) as [E _]. rewrite E by (cbn; lia). cbn [bind].
  unfold bit. rewrite bv_word by (apply word_reg; [assumption|unfold core; lia]). rewrite Z.bit0_odd.
  unfold privileged. rewrite <- Z.negb_odd. destruct (Z.odd (reg c (-4))); reflexivity.
Qed.
Lemma mod_word : forall v k, 0 <= k <= 32 -> word (v mod 2 ^ k).
Proof.
  intros v k Hk. unfold word. pose proof (Z.mod_pos_bound v (2 ^ k) (pow2_pos k ltac:(lia))). pose proof (pow2_le k 32). lia.
Qed.
Lemma set_low : forall x k, wf x -> 0 <= k <= 32 ->
  bs_setitem (bits 32 0) (KSlice (sl 0 k)) (VBits x) = Ok (bits 32 (bv x mod 2 ^ k)).
Proof.
  intros x k Wx Hk.
  destruct (C05_slice_proof (bits 32 0) (sl 0 k) (VBits x) x 0 k (wf32 0) (or_introl eq_refl)
    (slice_bounds_sl 0 k 32 ltac:(lia) ltac:(lia)) ltac:(lia)) as (r1 & E1 & W1 & B1 & T1).
  rewrite E1. f_equal. apply wf_bit_ext; [assumption|apply wf32|assumption|]. cbn [bw bits] in *. rewrite B1. intros j J.
  rewrite T1 by assumption. unfold bit. rewrite (bv_word (bv x mod 2 ^ k)) by (apply mod_word; lia). rewrite testbit_mod by lia.
  rewrite Z.sub_0_r. destruct (j <? k) eqn:L; cbn [andb].
  - replace (0 <=? j) with true by lia. reflexivity.
  - rewrite Bool.andb_false_r. apply Z.bits_0.
Qed.
Lemma set_zero : forall v a b s n, word v -> 0 <= a <= b -> b <= 32 -> bs_init (VStr s) None = Ok (bits n 0) ->
  (forall j, a <= j < b -> Z.testbit v j = false) ->
  bs_setitem (bits 32 v) (KSlice (sl a b)) (VStr s) = Ok (bits 32 v).
Proof.
  intros v a b s n V Ha Hb Es Z0.
  destruct (C05_slice_proof (bits 32 v) (sl a b) (VStr s) (bits n 0) a b (wf32 v) (or_intror (ex_intro _ s (conj eq_refl Es)))
    (slice_bounds_sl a b 32 ltac:(lia) ltac:(lia)) ltac:(lia)) as (r1 & E1 & W1 & B1 & T1).
  rewrite E1. f_equal. apply wf_bit_ext; [assumption|apply wf32|assumption|]. cbn [bw bits] in *. rewrite B1. intros j J.
  rewrite T1 by assumption. destruct ((a <=? j) && (j <? b)) eqn:L; [|reflexivity].
  unfold bit. rewrite (bv_word v) by assumption. rewrite Z0 by lia. rewrite bits_bv, Zmod_0_l. apply Z.bits_0.
Qed.
Lemma set_bit0 : forall b, bs_setitem (bits 32 0) (KInt 0) (VBits (bitv b)) = Ok (bits 32 (b2z b)).
Proof. intros []; vm_compute; reflexivity. Qed.
Lemma get_bit0 : forall v, word v -> bs_getitem (bits 32 v) (KInt 0) = Ok (bitv (Z.odd v)).
Proof.
  intros v V. destruct (C04_index_proof (bits 32 v) 0 (wf32 _)) as [E _]. rewrite E by (cbn; lia).
  unfold bit. rewrite bv_word, Z.bit0_odd by assumption. destruct (Z.odd v); reflexivity.
Qed.
Lemma odd_mod2 : forall v, b2z (Z.odd v) = v mod 2.
Proof. intros. rewrite Zmod_odd. reflexivity. Qed.

Lemma sysm_is_run : forall B (f : bool -> comp B) c i y a b s r, a_SYSm (i_attrs i) = Some y ->
  (let* x := bs_getitem y (KSlice (sl a b)) in eq_text x s) = Ok r ->
  mbind (sysm_is a b s) f (mkst c i) = f r (mkst c i).
Proof.
  intros B f c i y a b s r A E. unfold sysm_is. rewrite bind_assoc. rewrite (bind_attr _ _ _ _ _ _ _ A). rewrite bind_assoc.
  destruct (bs_getitem y (KSlice (sl a b))) as [x|e]; [|discriminate]. cbn [bind] in E. rewrite (bind_lift _ _ _ _ _ _ eq_refl).
  apply bind_lift. exact E.
Qed.
Lemma sysm_bit_run : forall B (f : bool -> comp B) c i y k s r, a_SYSm (i_attrs i) = Some y ->
  (let* x := bs_getitem y (KInt k) in eq_text x s) = Ok r ->
  mbind (sysm_bit k s) f (mkst c i) = f r (mkst c i).
Proof.
  intros B f c i y k s r A E. unfold sysm_bit. rewrite bind_assoc. rewrite (bind_attr _ _ _ _ _ _ _ A). rewrite bind_assoc.
  destruct (bs_getitem y (KInt k)) as [x|e]; [|discriminate]. cbn [bind] in E. rewrite (bind_lift _ _ _ _ _ _ eq_refl).
  apply bind_lift. exact E.
Qed.
Ltac at_sys S :=
  first [ rewrite (sysm_is_run _ _ _ _ _ _ _ _ true S) by (vm_compute; reflexivity)
        | rewrite (sysm_is_run _ _ _ _ _ _ _ _ false S) by (vm_compute; reflexivity)
        | rewrite (sysm_bit_run _ _ _ _ _ _ _ true S) by (vm_compute; reflexivity)
        | rewrite (sysm_bit_run _ _ _ _ _ _ _ false S) by (vm_compute; reflexivity) ]; cbv iota.

Lemma ipsr_run : forall c, regs_ok c -> get_ipsr c = Ok (bits 6 (reg c 16)).
Proof.
  intros c H. unfold get_ipsr, get_xpsr. rewrite (read_index c _ 16) by (assumption || reflexivity || (unfold core; lia)). cbn [bind].
  rewrite C04_simple_slice_proof by (try apply wf32; cbn; lia). rewrite bv_word by (apply word_reg; [assumption|unfold core; lia]).
  change (2 ^ 0) with 1. rewrite Z.div_1_r. reflexivity.
Qed.
Lemma wide_slice : forall v, bs_getitem (bits 6 v) (KSlice (sl 0 9)) = Ok (bits 6 v).
Proof.
  intros v. cbn [bs_getitem].
  assert (W : wf (bits 6 v)) by (apply wf_bits; lia).
  change (bs_getslice (bits 6 v) (sl 0 9)) with (bs_getslice (bits 6 v) (sl 0 6)).
  change (bs_getitem (bits 6 v) (KSlice (sl 0 6)) = Ok (bits 6 v)).
  rewrite C04_simple_slice_proof by (assumption || cbn; lia). change (2 ^ 0) with 1. rewrite Z.div_1_r.
  rewrite bits_bv. change (6 - 0) with 6. rewrite (bits_mod_eq 6 v) by lia. reflexivity.
Qed.
Lemma mod64_bits : forall v j, 6 <= j -> Z.testbit (v mod 2 ^ 6) j = false.
Proof. intros. rewrite testbit_mod by lia. replace (j <? 6) with false by lia. reflexivity. Qed.

Lemma xpsr_low : forall c i (b0 : bool) B (f : bs -> comp B), regs_ok c ->
  mbind (if b0 then do ipsr <- getc get_ipsr; do v <- lift (bs_getitem ipsr (KSlice (sl 0 9))); set_slice (bits 32 0) 0 9 (VBits v)
         else ret (bits 32 0)) f (mkst c i) = f (bits 32 (if b0 then reg c 16 mod 2 ^ 6 else 0)) (mkst c i).
Proof.
  intros c i [] B f H; [|reflexivity].
  rewrite bind_assoc. rewrite (bind_getc _ _ _ _ _ _ _ (ipsr_run c H)). rewrite bind_assoc.
  rewrite (bind_lift _ _ _ _ _ _ (wide_slice _)). unfold set_slice.
  rewrite (bind_lift _ _ _ _ _ _ (set_low _ 9 (wf_bits 6 _ ltac:(lia)) ltac:(lia))). rewrite bits_bv. rewrite Z.mod_small; [reflexivity|].
  pose proof (Z.mod_pos_bound (reg c 16) (2 ^ 6) ltac:(reflexivity)). change (2 ^ 9) with 512. change (2 ^ 6) with 64 in *. lia.
Qed.
Lemma xpsr_mid : forall c i (b1 : bool) v B (f : bs -> comp B), word v -> (forall j, 6 <= j -> Z.testbit v j = false) ->
  mbind (if b1 then do r <- set_slice (bits 32 v) 24 27 (VStr "000"); set_slice r 10 16 (VStr "000000") else ret (bits 32 v)) f (mkst c i)
  = f (bits 32 v) (mkst c i).
Proof.
  intros c i [] v B f V Z0; [|reflexivity]. rewrite bind_assoc. unfold set_slice.
  rewrite (bind_lift _ _ _ _ _ _ (set_zero v 24 27 "000" 3 V ltac:(lia) ltac:(lia) eq_refl ltac:(intros; apply Z0; lia))).
  rewrite (bind_lift _ _ _ _ _ _ (set_zero v 10 16 "000000" 6 V ltac:(lia) ltac:(lia) eq_refl ltac:(intros; apply Z0; lia))). reflexivity.
Qed.
Lemma mrs_bit_run : forall c i name k B (f : bs -> comp B), regs_ok c -> dict_get String.eqb name CORE_REGISTER = Some k -> core k ->
  mbind (mrs_bit (bits 32 0) name) f (mkst c i) = f (bits 32 (if privileged (reg c) then reg c k mod 2 else 0)) (mkst c i).
Proof.
  intros c i name k B f H E Ck. unfold mrs_bit. rewrite bind_assoc. rewrite (bind_getc _ _ _ _ _ _ _ (privileged_ok c H)).
  destruct (privileged (reg c)).
  - rewrite !bind_assoc. unfold rreg. rewrite E. rewrite (bind_getc _ _ _ _ _ _ _ (read_index c (RIndex k) k eq_refl H Ck)).
    rewrite !bind_assoc. rewrite (bind_lift _ _ _ _ _ _ (get_bit0 _ (word_reg c k H Ck))). rewrite bind_ret.
    rewrite (bind_lift _ _ _ _ _ _ (set_bit0 _)). rewrite odd_mod2. reflexivity.
  - rewrite !bind_assoc. rewrite bind_ret. rewrite (bind_lift _ _ _ (bits 32 0)) by (vm_compute; reflexivity). reflexivity.
Qed.
Lemma low_slice : forall v k, word v -> 0 <= k <= 32 -> bs_getitem (bits 32 v) (KSlice (sl 0 k)) = Ok (bits k v).
Proof.
  intros v k V Hk. rewrite C04_simple_slice_proof by (try apply wf32; cbn; lia). rewrite bv_word by assumption.
  change (2 ^ 0) with 1. rewrite Z.div_1_r, Z.sub_0_r. reflexivity.
Qed.

(*@doc C54, mrs: the named register, as far as the code reads it.  The TypeError of the registers
    holding the flags, and the 6-bit ipsr, are what the code does, not what is claimed. @*)
Lemma C54_mrs_partial_proof : forall py c i d y, regs_ok c -> gpr d -> special y = true ->
  is_insn i MoveFromSpecial [D d; Sys y] ->
  match special_read (reg c) y with
  | Some r => runs py c i (advance (set (reg c) d r) (i_size i)) i
  | None => execute py c i = (mkst c i, Err TypeError)
  end.
Proof.
  intros py c i d y H Gd Sy [K A].
  assert (SA : a_SYSm (i_attrs i) = Some (bits 8 y)) by (rewrite A; reflexivity).
  assert (Cy : y = 0 \/ y = 1 \/ y = 2 \/ y = 3 \/ y = 5 \/ y = 6 \/ y = 7 \/ y = 8 \/ y = 9 \/ y = 16 \/ y = 17 \/ y = 18 \/ y = 19 \/ y = 20)
    by (unfold special in Sy; lia).
  clear Sy.
  unfold runs, execute. rewrite K. cbn [eval]. unfold eval_MoveFromSpecial.
  rewrite (bind_lift _ _ _ _ _ _ (zeros_ok 32 ltac:(lia))).
  assert (Hx : forall b : bool, word (if b then reg c 16 mod 2 ^ 6 else 0) /\ forall j, 6 <= j -> Z.testbit (if b then reg c 16 mod 2 ^ 6 else 0) j = false).
  { intros []; (split; [|intros j J]); [apply mod_word; lia|apply mod64_bits; assumption|unfold word; lia|apply Z.bits_0]. }
  destruct Cy as [-> |[-> |[-> |[-> |[-> |[-> |[-> |[-> |[-> |[-> |[-> |[-> |[-> | ->]]]]]]]]]]]]]; cbn [special_read].
  (* the status registers *)
  Ltac start_xpsr SA b0 b1 c H Hx := at_sys SA; unfold mrs_xpsr; rewrite bind_assoc;
    rewrite (sysm_bit_run _ _ _ _ _ _ _ b0 SA) by (vm_compute; reflexivity);
    rewrite bind_assoc; rewrite (xpsr_low c _ b0) by exact H; rewrite bind_assoc;
    rewrite (sysm_bit_run _ _ _ _ _ _ _ b1 SA) by (vm_compute; reflexivity); rewrite bind_assoc;
    rewrite (xpsr_mid c _ b1) by (apply (Hx b0)); rewrite bind_assoc; at_sys SA.
  1: { start_xpsr SA false false c H Hx. reflexivity. }
  1: { start_xpsr SA true false c H Hx. reflexivity. }
  1: { start_xpsr SA false true c H Hx. reflexivity. }
  1: { start_xpsr SA true true c H Hx. reflexivity. }
  1: { start_xpsr SA true false c H Hx. rewrite bind_ret. at_attr. apply finish_plain; try assumption. apply (Hx true). }
  1: { start_xpsr SA false true c H Hx. rewrite bind_ret. at_attr. apply finish_plain; try assumption. apply (Hx false). }
  1: { start_xpsr SA true true c H Hx. rewrite bind_ret. at_attr. apply finish_plain; try assumption. apply (Hx true). }
  (* the stack pointers *)
  1: { at_sys SA. rewrite bind_assoc. at_sys SA. unfold mrs_sp. rewrite bind_assoc. rewrite (bind_getc _ _ _ _ _ _ _ (privileged_ok c H)).
       destruct (privileged (reg c)).
       - rewrite bind_assoc. at_sys SA. rewrite (bind_getc _ _ get_msp (bits 32 (reg c 17))) by (apply (read_index c (RName "msp") 17 eq_refl H); unfold core; lia).
         at_attr. apply finish_plain; try assumption. apply word_reg; [assumption|unfold core; lia].
       - rewrite bind_ret. at_attr. apply finish_plain; try assumption. unfold word; lia. }
  1: { at_sys SA. rewrite bind_assoc. at_sys SA. unfold mrs_sp. rewrite bind_assoc. rewrite (bind_getc _ _ _ _ _ _ _ (privileged_ok c H)).
       destruct (privileged (reg c)).
       - rewrite bind_assoc. at_sys SA. rewrite bind_assoc. at_sys SA. rewrite (bind_getc _ _ get_psp (bits 32 (reg c 18))) by (apply (read_index c (RName "psp") 18 eq_refl H); unfold core; lia).
         at_attr. apply finish_plain; try assumption. apply word_reg; [assumption|unfold core; lia].
       - rewrite bind_ret. at_attr. apply finish_plain; try assumption. unfold word; lia. }
  (* masks *)
  Ltac bit_word c H := destruct (privileged (reg c)); [change 2 with (2 ^ 1); apply mod_word; lia|unfold word; lia].
  1: { at_sys SA. rewrite bind_assoc. at_sys SA. rewrite bind_assoc. at_sys SA. unfold mrs_mask. rewrite bind_assoc. at_sys SA.
       rewrite (mrs_bit_run c i "primask" (-1)) by (assumption || reflexivity || (unfold core; lia)).
       at_attr. apply finish_plain; try assumption. bit_word c H. }
  Ltac base_mask SA c i H := rewrite bind_assoc; rewrite (bind_getc _ _ _ _ _ _ _ (privileged_ok c H)).
  1: { at_sys SA. rewrite bind_assoc. at_sys SA. rewrite bind_assoc. at_sys SA. unfold mrs_mask. rewrite bind_assoc. at_sys SA.
       rewrite bind_assoc. at_sys SA. rewrite bind_assoc, bind_ret. cbv iota. base_mask SA c i H.
       destruct (privileged (reg c)).
       - rewrite !bind_assoc. unfold rreg. change (dict_get String.eqb "basepri"%string CORE_REGISTER) with (Some (-2)). cbv iota.
         assert (C2 : core (-2)) by (unfold core; lia).
         rewrite (bind_getc _ _ _ _ _ _ _ (read_index c (RIndex (-2)) (-2) eq_refl H C2)). rewrite !bind_assoc.
         rewrite (bind_lift _ _ _ _ _ _ (low_slice _ 8 (word_reg c _ H C2) ltac:(lia))). rewrite bind_ret. unfold set_slice.
         rewrite (bind_lift _ _ _ _ _ _ (set_low _ 8 (wf_bits 8 _ ltac:(lia)) ltac:(lia))). rewrite bits_bv, Z.mod_mod by discriminate.
         at_attr. apply (finish_plain c i d (reg c (-2) mod 2 ^ 8)); try assumption. apply mod_word; lia.
       - rewrite bind_assoc, bind_ret. unfold set_slice. rewrite (bind_lift _ _ _ (bits 32 0)) by (vm_compute; reflexivity).
         at_attr. apply finish_plain; try assumption. unfold word; lia. }
  1: { at_sys SA. rewrite bind_assoc. at_sys SA. rewrite bind_assoc. at_sys SA. unfold mrs_mask. rewrite bind_assoc. at_sys SA.
       rewrite bind_assoc. at_sys SA. rewrite bind_assoc. at_sys SA. base_mask SA c i H.
       destruct (privileged (reg c)).
       - rewrite !bind_assoc. unfold rreg. change (dict_get String.eqb "basepri"%string CORE_REGISTER) with (Some (-2)). cbv iota.
         assert (C2 : core (-2)) by (unfold core; lia).
         rewrite (bind_getc _ _ _ _ _ _ _ (read_index c (RIndex (-2)) (-2) eq_refl H C2)). rewrite !bind_assoc.
         rewrite (bind_lift _ _ _ _ _ _ (low_slice _ 8 (word_reg c _ H C2) ltac:(lia))). rewrite bind_ret. unfold set_slice.
         rewrite (bind_lift _ _ _ _ _ _ (set_low _ 8 (wf_bits 8 _ ltac:(lia)) ltac:(lia))). rewrite bits_bv, Z.mod_mod by discriminate.
         at_attr. apply (finish_plain c i d (reg c (-2) mod 2 ^ 8)); try assumption. apply mod_word; lia.
       - rewrite bind_assoc, bind_ret. unfold set_slice. rewrite (bind_lift _ _ _ (bits 32 0)) by (vm_compute; reflexivity).
         at_attr. apply finish_plain; try assumption. unfold word; lia. }
  1: { at_sys SA. rewrite bind_assoc. at_sys SA. rewrite bind_assoc. at_sys SA. unfold mrs_mask. rewrite bind_assoc. at_sys SA.
       rewrite bind_assoc. at_sys SA. rewrite bind_assoc. at_sys SA. rewrite bind_assoc. at_sys SA.
       rewrite (mrs_bit_run c i "faultmask" (-3)) by (assumption || reflexivity || (unfold core; lia)).
       at_attr. apply finish_plain; try assumption. bit_word c H. }
  1: { at_sys SA. rewrite bind_assoc. at_sys SA. rewrite bind_assoc. at_sys SA. unfold mrs_mask. rewrite bind_assoc. at_sys SA.
       rewrite bind_assoc. at_sys SA. rewrite bind_assoc. at_sys SA. rewrite bind_assoc. at_sys SA. rewrite bind_assoc. at_sys SA.
       assert (C4 : core (-4)) by (unfold core; lia).
       rewrite bind_assoc. rewrite (bind_getc _ _ get_control (bits 32 (reg c (-4)))) by (apply (read_index c (RName "control") (-4) eq_refl H C4)).
       change (if has_fp_ext then 3 else 2) with 2. cbv zeta. rewrite bind_assoc.
       rewrite (bind_lift _ _ _ _ _ _ (low_slice _ 2 (word_reg c _ H C4) ltac:(lia))). unfold set_slice.
       rewrite (bind_lift _ _ _ _ _ _ (set_low _ 2 (wf_bits 2 _ ltac:(lia)) ltac:(lia))). rewrite bits_bv, Z.mod_mod by discriminate.
       at_attr. apply (finish_plain c i d (reg c (-4) mod 2 ^ 2)); try assumption. apply mod_word; lia. }
Qed.
(*@ex
Example C54_mrs_partial_ex :
  let i := an_insn MoveFromSpecial [D 0; Sys 8] true in
  cpu_ok ex_state /\
  reg_after Py2 ex_state i 0 = 48 /\
  reg_after Py2 ex_state i 15 = 38.
Proof. split; [exact ex_state_ok|]. vm_compute. repeat split; reflexivity. Qed.
@*)

Lemma mvn_shifted_fails : forall py c i, i_klass i = ShiftedMoveNegate ->
  execute py c i = (mkst c i, Err NameError).
Proof. intros py c i K. unfold execute. rewrite K. reflexivity. Qed.
