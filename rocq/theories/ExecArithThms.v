(** * Effect of additions, comparisons, moves, extensions *)
From Coq Require Import Lia ZifyBool.
From Verif Require Import BitstringModel SpecBits BitFacts BitOps BitMisc BitThms HelpersModel SpecArm HelpFacts CpuModel SpecCpu
  CpuFacts CpuThms InsnModel ExecModel SpecExec ExecFacts ExecDataThms SpecIsa.
(*@imports
From Coq Require Import Lia ZifyBool.
From Verif Require Import BitstringModel SpecBits BitFacts BitOps BitMisc BitThms HelpersModel SpecArm HelpFacts CpuModel SpecCpu
  CpuFacts CpuThms InsnModel ExecModel SpecExec ExecFacts ExecDataThms ExecArithThms SpecIsa.
Local Open Scope bool_scope.
Local Open Scope Z_scope.
@*)
Local Open Scope bool_scope.
Local Open Scope Z_scope.

Lemma bit0_v : bit0 = bitv false. Proof. reflexivity. Qed.
Lemma bit1_v : bit1 = bitv true. Proof. reflexivity. Qed.
Lemma flip_word : forall v, word v -> word (flip v).
Proof. intros v V. unfold flip, word in *. destruct (v <? 2 ^ 31) eqn:E; lia. Qed.
Lemma flip_small : forall v, v < 2 ^ 31 -> flip v = v.
Proof. intros. unfold flip. destruct (v <? 2 ^ 31) eqn:E; lia. Qed.
Lemma flip_nonneg : forall v, word v -> negative (flip v) = false.
Proof. intros v V. unfold negative, flip, word in *. change (2 ^ 32) with 4294967296 in *. change (2 ^ 31) with 2147483648 in *. destruct (v <? 2147483648) eqn:E; lia. Qed.
Lemma word_not : forall v, word v -> word (2 ^ 32 - 1 - v).
Proof. unfold word. lia. Qed.
Lemma operand2_word : forall sub b, word b -> word (operand2 sub b).
Proof. intros [] b B; [apply word_not|]; assumption. Qed.

Lemma add32 : forall a b cb, word a -> word b ->
  AddWithCarry (bits 32 a) (bits 32 b) (bitv cb) =
  Ok ((bits 32 (flip a), bits 32 (flip b)),
      (bits 32 (flip (wrap (a + b + b2z cb))), bitv (carry_of a b (b2z cb)), bitv (overflow_of a b (b2z cb)))).
Proof.
  intros a b cb A B. pose proof (addc_ok (bits 32 a) (bits 32 b) (bitv cb) (wf32 a) (wf32 b) eq_refl ltac:(cbn; lia)) as E.
  cbv zeta in E. rewrite E. clear E. rewrite bits_bw, !bv_word by assumption.
  change (bv (bitv cb)) with (b2z cb). change (32 - 1) with 31.
  assert (F : forall v, word v -> (if v <? 2 ^ 31 then bits 32 v else bits 32 (2 ^ 32 - 1 - v)) = bits 32 (flip v))
    by (intros v _; unfold flip; destruct (v <? 2 ^ 31); reflexivity).
  rewrite (F a A), (F b B). change (bv (bits 32 (a + b + b2z cb))) with (wrap (a + b + b2z cb)).
  assert (G : (if wrap (a + b + b2z cb) <? 2 ^ 31 then bits 32 (a + b + b2z cb) else bits 32 (2 ^ 32 - 1 - wrap (a + b + b2z cb)))
    = bits 32 (flip (wrap (a + b + b2z cb)))).
  { rewrite <- (F (wrap (a + b + b2z cb)) (word_wrap _)). rewrite bits_wrap. reflexivity. }
  rewrite G. rewrite carry_iff by (unfold word in *; destruct cb; cbn [b2z]; lia).
  rewrite (overflow_iff 32 a b (b2z cb)) by lia. reflexivity.
Qed.
Lemma not32 : forall v, word v -> bs_invert (bits 32 v) = Ok (bits 32 (2 ^ 32 - 1 - v)).
Proof. intros v V. rewrite (invert_ok _ (wf32 v)), bits_bw, bv_word by assumption. reflexivity. Qed.

Lemma with_imm_twice : forall i u v, with_imm (with_imm i u) v = with_imm i v.
Proof. reflexivity. Qed.
Lemma with_imm_same : forall i l k v, is_insn i k l -> a_imm32 (attributes l) = Some (bits 32 v) -> with_imm i v = i.
Proof.
  intros [mn w is a kl ops at_] l k v [K A] E. cbn [i_attrs i_klass] in *. subst at_.
  unfold with_imm, set_attrs, with_imm32. cbn [i_mnemonic i_word i_is32 i_address i_klass i_operands i_attrs] in *.
  rewrite <- E. destruct (attributes l). reflexivity.
Qed.

(** ** AddSub *)
Lemma add_shared_imm : forall c i a b cb B (f : bs * bs * bs -> comp B), word a -> word b ->
  mbind (add_shared (bits 32 a) true (bits 32 b) (bitv cb)) f (mkst c i) =
  f (bits 32 (flip (wrap (a + b + b2z cb))), bitv (carry_of a b (b2z cb)), bitv (overflow_of a b (b2z cb)))
    (mkst c (with_imm i (flip b))).
Proof.
  intros. unfold add_shared. rewrite bind_assoc. rewrite (bind_lift _ _ _ _ _ _ (add32 a b cb H H0)). cbv beta iota.
  unfold put_imm. rewrite bind_assoc. rewrite bind_setattr. rewrite bind_ret. reflexivity.
Qed.
Lemma add_shared_reg : forall c i a b cb B (f : bs * bs * bs -> comp B), word a -> word b ->
  mbind (add_shared (bits 32 a) false (bits 32 b) (bitv cb)) f (mkst c i) =
  f (bits 32 (flip (wrap (a + b + b2z cb))), bitv (carry_of a b (b2z cb)), bitv (overflow_of a b (b2z cb))) (mkst c i).
Proof.
  intros. unfold add_shared. rewrite bind_assoc. rewrite (bind_lift _ _ _ _ _ _ (add32 a b cb H H0)). cbv beta iota.
  unfold put_imm. rewrite bind_assoc. rewrite !bind_ret. reflexivity.
Qed.
Lemma carry_choice : forall c i (uc sub : bool) B (f : bs -> comp B), regs_ok c ->
  mbind (if uc then fget FC else ret (bitv sub)) f (mkst c i) =
  f (bitv (if uc then flag_C (reg c 16) else sub)) (mkst c i).
Proof. intros c i uc sub B f H. destruct uc; [apply bind_fget; assumption|apply bind_ret]. Qed.
Lemma carry_in_b2z : forall (sub uc : bool) x, b2z (if uc then flag_C x else sub) = carry_in sub uc x.
Proof. intros sub [] x; reflexivity. Qed.

(*@doc C42, register forms, exactly what is stored: the sum of the operands with every bit inverted
    when it is negative; C and V are those of the addition.  Not proved, because false
    (C42_refuted): that the sum itself is stored. @*)
Lemma C42_register_partial_proof : forall py c i d n m sf uc sub, regs_ok c -> gpr d -> gpr n -> gpr m ->
  is_insn i AddSub [D d; N n; M m; Flags sf; Carry uc; Sub sub] ->
  let a := reg c n in let b := operand2 sub (reg c m) in let ci := carry_in sub uc (reg c 16) in
  let r := flip (wrap (a + b + ci)) in
  runs py c i (advance (set_result sf (set (reg c) d r) r (Some (carry_of a b ci)) (Some (overflow_of a b ci))) (i_size i)) i.
Proof.
  intros py c i d n m sf uc sub H Gd Gn Gm [K A] a b ci r. begin_exec K A. unfold eval_AddSub.
  pose proof (word_gpr c n H Gn) as Wn. pose proof (word_gpr c m H Gm) as Wm.
  assert (Wb : word b) by (apply operand2_word; assumption).
  at_attr. rewrite bind_assoc || idtac.
  assert (S1 : forall B (f : bs * bs * bs -> comp B),
    mbind (if sub then
       do n <- attr a_n; do x <- rget n; do ' (shared, y) <- imm_or_m; do y' <- lift (bs_invert y);
       do _ <- put_imm shared y'; do uc <- attr a_use_carry; do c <- (if uc then fget FC else ret bit1);
       add_shared x shared y' c
     else
       do n <- attr a_n; do x <- rget n; do ' (shared, y) <- imm_or_m; do uc <- attr a_use_carry;
       do c <- (if uc then fget FC else ret bit0); add_shared x shared y c) f (mkst c i)
    = f (bits 32 r, bitv (carry_of a b ci), bitv (overflow_of a b ci)) (mkst c i)).
  { intros B f. destruct sub.
    - rewrite bind_assoc. at_attr. rewrite bind_assoc. at_get. rewrite bind_assoc. unfold imm_or_m. rewrite bind_assoc. at_has.
      rewrite bind_assoc. at_attr. rewrite bind_assoc. at_get. rewrite bind_ret.
      rewrite bind_assoc. rewrite (bind_lift _ _ _ _ _ _ (not32 _ Wm)). rewrite bind_assoc. unfold put_imm. rewrite bind_ret.
      rewrite bind_assoc. at_attr. rewrite bind_assoc. rewrite bit1_v, carry_choice by assumption.
      rewrite add_shared_reg by assumption. rewrite carry_in_b2z. reflexivity.
    - rewrite bind_assoc. at_attr. rewrite bind_assoc. at_get. rewrite bind_assoc. unfold imm_or_m. rewrite bind_assoc. at_has.
      rewrite bind_assoc. at_attr. rewrite bind_assoc. at_get. rewrite bind_ret.
      rewrite bind_assoc. at_attr. rewrite bind_assoc. rewrite bit0_v, carry_choice by assumption.
      rewrite add_shared_reg by assumption. rewrite carry_in_b2z. reflexivity. }
  rewrite S1. clear S1. cbv beta iota. at_attr.
  apply (finish py c i d r sf (Some _) (Some _)); try assumption; [|sflags]. apply flip_word. apply word_wrap.
Qed.
(*@ex
Example C42_register_partial_ex :
  let i := an_insn AddSub [D 0; N 1; M 3; Flags Always; Carry true; Sub false] false in
  cpu_ok ex_state /\
  reg_after Py2 ex_state i 0 = 2147483629 /\
  flag_N (reg_after Py2 ex_state i 16) = false.
Proof. split; [exact ex_state_ok|]. vm_compute. repeat split; reflexivity. Qed.
@*)

Lemma flip_operand2 : forall sub v, word v -> flip (operand2 sub v) = flip v.
Proof.
  intros [] v V; [|reflexivity]. unfold flip, operand2, word in *.
  change (2 ^ 32) with 4294967296 in *. change (2 ^ 31) with 2147483648.
  destruct (v <? 2147483648) eqn:E; destruct (4294967296 - 1 - v <? 2147483648) eqn:E'; lia.
Qed.
Lemma attrs_with_imm : forall i l v, i_attrs i = attributes l -> i_attrs (with_imm i v) = with_imm32 (bits 32 v) (attributes l).
Proof. intros i l v A. unfold with_imm, set_attrs. cbn [i_attrs]. rewrite A. reflexivity. Qed.

(*@doc C42, immediate forms; the immediate of the object is overwritten as well. @*)
Lemma C42_immediate_partial_proof : forall py c i d n v sf uc sub, regs_ok c -> gpr d -> gpr n -> word v ->
  is_insn i AddSub [D d; N n; Flags sf; Imm v; Carry uc; Sub sub] ->
  let a := reg c n in let b := operand2 sub v in let ci := carry_in sub uc (reg c 16) in
  let r := flip (wrap (a + b + ci)) in
  runs py c i (advance (set_result sf (set (reg c) d r) r (Some (carry_of a b ci)) (Some (overflow_of a b ci))) (i_size i))
    (with_imm i (flip v)).
Proof.
  intros py c i d n v sf uc sub H Gd Gn Wv [K A] a b ci r. begin_exec K A. unfold eval_AddSub.
  pose proof (word_gpr c n H Gn) as Wn.
  assert (Wb : word b) by (apply operand2_word; assumption).
  at_attr.
  assert (S1 : forall B (f : bs * bs * bs -> comp B),
    mbind (if sub then
       do n <- attr a_n; do x <- rget n; do ' (shared, y) <- imm_or_m; do y' <- lift (bs_invert y);
       do _ <- put_imm shared y'; do uc <- attr a_use_carry; do c <- (if uc then fget FC else ret bit1);
       add_shared x shared y' c
     else
       do n <- attr a_n; do x <- rget n; do ' (shared, y) <- imm_or_m; do uc <- attr a_use_carry;
       do c <- (if uc then fget FC else ret bit0); add_shared x shared y c) f (mkst c i)
    = f (bits 32 r, bitv (carry_of a b ci), bitv (overflow_of a b ci)) (mkst c (with_imm i (flip v)))).
  { intros B f. destruct sub.
    - rewrite bind_assoc. at_attr. rewrite bind_assoc. at_get. rewrite bind_assoc. unfold imm_or_m. rewrite bind_assoc. at_has.
      rewrite bind_assoc. at_attr. rewrite bind_ret.
      rewrite bind_assoc. rewrite (bind_lift _ _ _ _ _ _ (not32 _ Wv)). rewrite bind_assoc. unfold put_imm. rewrite bind_setattr.
      pose proof (attrs_with_imm i _ (2 ^ 32 - 1 - v) A) as A'. unfold with_imm in A'.
      rewrite bind_assoc. erewrite bind_attr by (rewrite A'; reflexivity). rewrite bind_assoc. rewrite bit1_v, carry_choice by assumption.
      rewrite add_shared_imm by assumption. rewrite carry_in_b2z.
      change (set_attrs (with_imm32 (bits 32 (2 ^ 32 - 1 - v))) i) with (with_imm i (2 ^ 32 - 1 - v)). rewrite with_imm_twice.
      change (2 ^ 32 - 1 - v) with (operand2 true v). rewrite flip_operand2 by assumption. reflexivity.
    - rewrite bind_assoc. at_attr. rewrite bind_assoc. at_get. rewrite bind_assoc. unfold imm_or_m. rewrite bind_assoc. at_has.
      rewrite bind_assoc. at_attr. rewrite bind_ret.
      rewrite bind_assoc. at_attr. rewrite bind_assoc. rewrite bit0_v, carry_choice by assumption.
      rewrite add_shared_imm by assumption. rewrite carry_in_b2z. reflexivity. }
  rewrite S1. clear S1. cbv beta iota.
  pose proof (attrs_with_imm i _ (flip v) A) as A'. erewrite bind_attr by (rewrite A'; reflexivity).
  apply (finish py c (with_imm i (flip v)) d r sf (Some _) (Some _)); try assumption; [|rewrite A'; reflexivity].
  apply flip_word. apply word_wrap.
Qed.
(*@ex
Example C42_immediate_partial_ex :
  let i := an_insn AddSub [D 0; N 3; Flags Always; Imm 20; Carry false; Sub true] false in
  cpu_ok ex_state /\
  reg_after Py2 ex_state i 0 = 3 /\
  flag_C (reg_after Py2 ex_state i 16) = false.
Proof. split; [exact ex_state_ok|]. vm_compute. repeat split; reflexivity. Qed.
@*)

(*@doc C42, rsb. @*)
Lemma C42_reverse_partial_proof : forall py c i d n v sf, regs_ok c -> gpr d -> gpr n -> word v ->
  is_insn i ReverseSubtract [D d; N n; Flags sf; Imm v] ->
  let a := operand2 true (reg c n) in let r := flip (wrap (v - reg c n)) in
  runs py c i (advance (set_result sf (set (reg c) d r) r (Some (carry_of a v 1)) (Some (overflow_of a v 1))) (i_size i))
    (with_imm i (flip v)).
Proof.
  intros py c i d n v sf H Gd Gn Wv [K A] a r. begin_exec K A. unfold eval_ReverseSubtract.
  pose proof (word_gpr c n H Gn) as Wn. at_attr. at_get. rewrite (bind_lift _ _ _ _ _ _ (not32 _ Wn)). at_attr.
  rewrite bit1_v, add_shared_imm by (try apply word_not; assumption). cbv beta iota.
  replace (flip (wrap (2 ^ 32 - 1 - reg c n + v + b2z true))) with r
    by (unfold r, wrap; f_equal; cbn [b2z]; replace (2 ^ 32 - 1 - reg c n + v + 1) with (v - reg c n + 1 * 2 ^ 32) by ring; rewrite Z.mod_add by discriminate; reflexivity).
  pose proof (attrs_with_imm i _ (flip v) A) as A'. erewrite bind_attr by (rewrite A'; reflexivity).
  apply (finish py c (with_imm i (flip v)) d r sf (Some _) (Some _)); try assumption; [|rewrite A'; reflexivity].
  apply flip_word. apply word_wrap.
Qed.
(*@ex
Example C42_reverse_partial_ex :
  let i := an_insn ReverseSubtract [D 0; N 3; Flags Always; Imm 20] true in
  cpu_ok ex_state /\
  reg_after Py2 ex_state i 0 = 4 /\
  reg_after Py2 ex_state i 15 = 38.
Proof. split; [exact ex_state_ok|]. vm_compute. repeat split; reflexivity. Qed.
@*)

(** ** Flags only *)
Lemma four_flags : forall c i r cf vf, regs_ok c -> word r ->
  exists c', (do b <- lift (bs_getitem (bits 32 r) (KInt 31));
  do _ <- fset FN b; do z <- lift (bs_is_zero_bit (bits 32 r)); do _ <- fset FZ z;
  do _ <- fset FC (bitv cf); do _ <- fset FV (bitv vf); pc_next) (mkst c i) = (mkst c' i, Ok tt) /\ c_mem c' = c_mem c /\
  forall k, core k -> reg c' k = advance (set_nzcv (reg c) (Some (negative r)) (Some (r =? 0)) (Some cf) (Some vf)) (i_size i) k.
Proof.
  intros c i r cf vf H R. eexists. split.
  - rewrite (bind_lift _ _ _ _ _ _ (bit31 r R)). rewrite bind_fset by assumption.
    rewrite (bind_lift _ _ _ _ _ _ (zero_bit r R)).
    pose proof (ok_flag c FN (negative r) H) as H1. rewrite bind_fset by assumption.
    pose proof (ok_flag _ FZ (r =? 0) H1) as H2. rewrite bind_fset by assumption.
    pose proof (ok_flag _ FC cf H2) as H3. rewrite bind_fset by assumption.
    pose proof (ok_flag _ FV vf H3) as H4. apply pc_next_run. assumption.
  - pose proof (WF_mem c (negative r) (r =? 0) (Some cf) (Some vf)) as E. unfold WF in E. cbv zeta in E. cbn [flag_bit].
    split; [rewrite mem_W; exact E|]. intros k K. rewrite reg_W. unfold advance.
    pose proof (fun j => WF_reg c (negative r) (r =? 0) (Some cf) (Some vf) j) as G. unfold WF in G. cbv zeta in G.
    rewrite G. apply set_ext; [|assumption]. intros j _. apply G.
Qed.
Lemma three_flags : forall c i r cf, regs_ok c -> word r ->
  exists c', (do b <- lift (bs_getitem (bits 32 r) (KInt 31));
  do _ <- fset FN b; do z <- lift (bs_is_zero_bit (bits 32 r)); do _ <- fset FZ z;
  do _ <- fset FC (bitv cf); pc_next) (mkst c i) = (mkst c' i, Ok tt) /\ c_mem c' = c_mem c /\
  forall k, core k -> reg c' k = advance (set_nzcv (reg c) (Some (negative r)) (Some (r =? 0)) (Some cf) None) (i_size i) k.
Proof.
  intros c i r cf H R. eexists. split.
  - rewrite (bind_lift _ _ _ _ _ _ (bit31 r R)). rewrite bind_fset by assumption.
    rewrite (bind_lift _ _ _ _ _ _ (zero_bit r R)).
    pose proof (ok_flag c FN (negative r) H) as H1. rewrite bind_fset by assumption.
    pose proof (ok_flag _ FZ (r =? 0) H1) as H2. rewrite bind_fset by assumption.
    pose proof (ok_flag _ FC cf H2) as H3. apply pc_next_run. assumption.
  - pose proof (WF_mem c (negative r) (r =? 0) (Some cf) None) as E. unfold WF in E. cbv zeta in E. cbn [flag_bit].
    split; [rewrite mem_W; exact E|]. intros k K. rewrite reg_W. unfold advance.
    pose proof (fun j => WF_reg c (negative r) (r =? 0) (Some cf) None j) as G. unfold WF in G. cbv zeta in G.
    rewrite G. apply set_ext; [|assumption]. intros j _. apply G.
Qed.

(*@doc C46, cmp and cmn of registers: N is never set, Z is set for the sums 0 and 0xffffffff,
    C and V are right. @*)
Lemma C46_compare_register_partial_proof : forall py c i n m neg, regs_ok c -> gpr n -> gpr m ->
  is_insn i Compare [N n; M m; Neg neg] ->
  let a := reg c n in let b := operand2 neg (reg c m) in
  let r := flip (wrap (a + b + b2z neg)) in
  runs py c i (advance (set_nzcv (reg c) (Some false) (Some (r =? 0))
    (Some (carry_of a b (b2z neg))) (Some (overflow_of a b (b2z neg)))) (i_size i)) i.
Proof.
  intros py c i n m neg H Gn Gm [K A] a b r. begin_exec K A. unfold eval_Compare.
  pose proof (word_gpr c n H Gn) as Wn. pose proof (word_gpr c m H Gm) as Wm.
  assert (Wb : word b) by (apply operand2_word; assumption).
  at_has. rewrite bind_assoc. at_attr. rewrite bind_assoc. at_get. rewrite bind_ret. at_attr.
  replace (Some false) with (Some (negative r)) by (unfold r; rewrite flip_nonneg by apply word_wrap; reflexivity).
  destruct neg.
  - rewrite bind_assoc. rewrite (bind_lift _ _ _ _ _ _ (not32 _ Wm)). rewrite bind_assoc. unfold put_imm. rewrite !bind_ret.
    at_attr. at_get. rewrite bit1_v, add_shared_reg by assumption. cbv beta iota.
    apply (four_flags c i r); [assumption|]. apply flip_word. apply word_wrap.
  - rewrite !bind_ret. at_attr. at_get. rewrite bit0_v, add_shared_reg by assumption. cbv beta iota.
    apply (four_flags c i r); [assumption|]. apply flip_word. apply word_wrap.
Qed.
(*@ex
Example C46_compare_register_partial_ex :
  let i := an_insn Compare [N 3; M 0; Neg true] false in
  cpu_ok ex_state /\
  flag_C (reg_after Py2 ex_state i 16) = true /\
  flag_Z (reg_after Py2 ex_state i 16) = false /\
  reg_after Py2 ex_state i 3 = 16.
Proof. split; [exact ex_state_ok|]. vm_compute. repeat split; reflexivity. Qed.
@*)
(*@doc C46, immediate forms. @*)
Lemma C46_compare_immediate_partial_proof : forall py c i n v neg, regs_ok c -> gpr n -> word v ->
  is_insn i Compare [N n; Imm v; Neg neg] ->
  let a := reg c n in let b := operand2 neg v in
  let r := flip (wrap (a + b + b2z neg)) in
  runs py c i (advance (set_nzcv (reg c) (Some false) (Some (r =? 0))
    (Some (carry_of a b (b2z neg))) (Some (overflow_of a b (b2z neg)))) (i_size i)) (with_imm i (flip v)).
Proof.
  intros py c i n v neg H Gn Wv [K A] a b r. begin_exec K A. unfold eval_Compare.
  pose proof (word_gpr c n H Gn) as Wn. assert (Wb : word b) by (apply operand2_word; assumption).
  at_has. rewrite bind_assoc. at_attr. rewrite bind_ret. at_attr.
  replace (Some false) with (Some (negative r)) by (unfold r; rewrite flip_nonneg by apply word_wrap; reflexivity).
  destruct neg.
  - rewrite bind_assoc. rewrite (bind_lift _ _ _ _ _ _ (not32 _ Wv)). rewrite bind_assoc. unfold put_imm. rewrite bind_setattr. rewrite !bind_ret.
    pose proof (attrs_with_imm i _ (2 ^ 32 - 1 - v) A) as A'. unfold with_imm in A'.
    erewrite bind_attr by (rewrite A'; reflexivity). at_get. rewrite bit1_v, add_shared_imm by assumption. cbv beta iota.
    change (set_attrs (with_imm32 (bits 32 (2 ^ 32 - 1 - v))) i) with (with_imm i (2 ^ 32 - 1 - v)). rewrite with_imm_twice.
    change (2 ^ 32 - 1 - v) with (operand2 true v). rewrite flip_operand2 by assumption.
    apply (four_flags c (with_imm i (flip v)) r); [assumption|]. apply flip_word. apply word_wrap.
  - rewrite !bind_ret. at_attr. at_get. rewrite bit0_v, add_shared_imm by assumption. cbv beta iota.
    apply (four_flags c (with_imm i (flip v)) r); [assumption|]. apply flip_word. apply word_wrap.
Qed.
(*@ex
Example C46_compare_immediate_partial_ex :
  let i := an_insn Compare [N 3; Imm 17; Neg true] false in
  cpu_ok ex_state /\
  flag_C (reg_after Py2 ex_state i 16) = false /\
  flag_Z (reg_after Py2 ex_state i 16) = true /\
  flag_N (reg_after Py2 ex_state i 16) = false.
Proof. split; [exact ex_state_ok|]. vm_compute. repeat split; reflexivity. Qed.
@*)
(*@doc C46, tst. @*)
Lemma C46_test_proof : forall py c i n m ty amount, regs_ok c -> gpr n -> gpr m -> 0 <= amount -> (ty = SR_RRX -> amount = 1) ->
  is_insn i Test [N n; M m; ShT ty; ShN amount] ->
  let (y, cf) := shift_result ty 32 (reg c m) amount (flag_C (reg c 16)) in
  let r := Z.land (reg c n) y in
  runs py c i (advance (set_nzcv (reg c) (Some (negative r)) (Some (r =? 0)) (Some cf) None) (i_size i)) i.
Proof.
  intros py c i n m ty amount H Gn Gm Ha Ht [K A].
  destruct (shift_result ty 32 (reg c m) amount (flag_C (reg c 16))) as [y cf] eqn:E.
  begin_exec K A. unfold eval_Test. pose proof (word_gpr c n H Gn) as Wn. pose proof (word_gpr c m H Gm) as Wm.
  pose proof (shift_result_word ty (reg c m) amount (flag_C (reg c 16)) Wm Ha Ht) as R. rewrite E in R. cbn [fst] in R.
  at_attr. at_get. at_attr. at_attr. rewrite bind_fget by assumption.
  erewrite bind_lift by (apply shift32; assumption). change (Z.testbit (reg c 16) (flag_bit FC)) with (flag_C (reg c 16)).
  rewrite E. cbv beta iota. cbn [fst snd]. at_attr. at_get.
  rewrite (bind_lift _ _ _ _ _ _ (apply_op_ok OpAnd _ _ Wn R)). cbn [bit_result].
  apply three_flags; [assumption|]. apply word_land; assumption.
Qed.
(*@ex
Example C46_test_ex :
  let i := an_insn Test [N 1; M 2; ShT SR_LSL; ShN 0] false in
  cpu_ok ex_state /\
  flag_N (reg_after Py2 ex_state i 16) = true /\
  flag_Z (reg_after Py2 ex_state i 16) = false.
Proof. split; [exact ex_state_ok|]. vm_compute. repeat split; reflexivity. Qed.
@*)

(** ** Moves *)
Lemma put_bit_same : forall x k, 0 <= k -> put_bit x k (Z.testbit x k) = x.
Proof.
  intros x k K. apply Z.bits_inj'. intros j J. rewrite put_bit_testbit by assumption.
  destruct (j =? k) eqn:E; [|reflexivity]. apply Z.eqb_eq in E. subst. reflexivity.
Qed.
Lemma result_keeps_C : forall sf f r k, core k ->
  set_result sf f r (Some (flag_C (f 16))) None k = set_result sf f r None None k.
Proof.
  intros sf f r k K. unfold set_result. destruct (sets sf); [|reflexivity]. unfold set_nzcv, set.
  destruct (written 16 k); [|reflexivity]. change (kept 16 ?v) with v. unfold put_flags, opt_bit, flag_C.
  set (y := put_bit (put_bit (f 16) 31 (negative r)) 30 (r =? 0)).
  replace (Z.testbit (f 16) 29) with (Z.testbit y 29); [apply put_bit_same; lia|].
  unfold y. rewrite !put_bit_testbit by lia. reflexivity.
Qed.
Lemma advance_ext : forall f g n, (forall k, core k -> f k = g k) -> forall k, core k -> advance f n k = advance g n k.
Proof. intros f g n H k K. unfold advance. rewrite (H 15) by (unfold core; lia). apply set_ext; assumption. Qed.
Lemma finish_move : forall (py : pyver) c i d r sf, regs_ok c -> gpr d -> word r -> a_setflags (i_attrs i) = Some sf ->
  exists c',
  mbind (rset d (bits 32 r)) (fun _ => mbind (fget FC) (fun cc => mbind (set_flags (bits 32 r) (Some cc) None) (fun _ => pc_next))) (mkst c i)
  = (mkst c' i, Ok tt) /\ c_mem c' = c_mem c /\
  forall k, core k -> reg c' k = advance (set_result sf (set (reg c) d r) r None None) (i_size i) k.
Proof.
  intros py c i d r sf H Gd R A.
  destruct (finish py c i d r sf (Some (flag_C (set (reg c) d r 16))) None H Gd R A) as (c' & E & M' & G).
  exists c'. split; [|split; [assumption|]].
  - rewrite <- E. rewrite !bind_rset by assumption. rewrite bv_word by assumption.
    rewrite bind_fget by (apply ok_W; assumption). rewrite reg_W. reflexivity.
  - intros k K. rewrite (G k K). apply advance_ext; [|assumption]. intros j J. apply result_keeps_C. assumption.
Qed.

(*@doc C45, mov and mvn of a register.  A source of pc turns the flag setting off, also in the object. @*)
Lemma C45_register_proof : forall py c i d m sf neg, regs_ok c -> gpr d -> gpr m ->
  is_insn i Move [D d; M m; Flags sf; Neg neg] ->
  let r := if neg then 2 ^ 32 - 1 - reg c m else reg c m in
  let sf' := if m =? 15 then Never else sf in
  runs py c i (advance (set_result sf' (set (reg c) d r) r None None) (i_size i))
    (if m =? 15 then with_flags i Never else i).
Proof.
  intros py c i d m sf neg H Gd Gm [K A] r sf'. begin_exec K A. unfold eval_Move.
  pose proof (word_gpr c m H Gm) as Wm.
  assert (Wr : word r) by (unfold r; destruct neg; [apply word_not|]; assumption).
  at_has. rewrite bind_assoc. at_attr. rewrite bind_assoc. at_get. rewrite bind_assoc.
  set (i' := if m =? 15 then with_flags i Never else i).
  assert (A' : exists sf0, i_attrs i' = attributes [D d; M m; Flags sf0; Neg neg] /\ sf0 = sf').
  { unfold i', sf'. destruct (m =? 15); eexists; (split; [|reflexivity]).
    - unfold with_flags, set_attrs. cbn [i_attrs]. rewrite A. reflexivity.
    - exact A. }
  destruct A' as (sf0 & A' & ->).
  assert (S1 : forall B (f : unit -> comp B), mbind (if m =? 15 then setattr (with_setflags Never) else ret tt) f (mkst c i) = f tt (mkst c i')).
  { intros B f. unfold i'. destruct (m =? 15); reflexivity. }
  rewrite S1. rewrite bind_ret. clearbody i'. clear A. at_attr.
  assert (S2 : forall B (f : bs -> comp B),
    mbind (if neg then do r <- lift (bs_invert (bits 32 (reg c m))); do _ <- put_imm false r; ret r else ret (bits 32 (reg c m))) f (mkst c i')
    = f (bits 32 r) (mkst c i')).
  { intros B f. unfold r. destruct neg; [|apply bind_ret]. rewrite bind_assoc.
    rewrite (bind_lift _ _ _ _ _ _ (not32 _ Wm)). rewrite bind_assoc. unfold put_imm. rewrite !bind_ret. reflexivity. }
  rewrite S2. at_attr.
  destruct (finish_move py c i' d r sf' H Gd Wr) as (c' & E & M' & G); [rewrite A'; reflexivity|].
  exists c'. split; [exact E|]. split; [assumption|].
  intros k K'. rewrite (G k K'). assert (i_size i' = i_size i).
  { specialize (S1 bool (fun _ s => (s, Ok true))). unfold mbind in S1. destruct (m =? 15) in S1; injection S1 as <-; reflexivity. }
  rewrite H0. reflexivity.
Qed.
(*@ex
Example C45_register_ex :
  let i := an_insn Move [D 0; M 4; Flags Always; Neg true] false in
  cpu_ok ex_state /\
  reg_after Py2 ex_state i 0 = 0xedcba987 /\
  flag_N (reg_after Py2 ex_state i 16) = true.
Proof. split; [exact ex_state_ok|]. vm_compute. repeat split; reflexivity. Qed.
@*)
(*@doc C45, mov and mvn of an immediate; C is kept. @*)
Lemma C45_immediate_proof : forall py c i d v sf neg, regs_ok c -> gpr d -> word v ->
  is_insn i Move [D d; Flags sf; Imm v; Neg neg] ->
  let r := if neg then 2 ^ 32 - 1 - v else v in
  runs py c i (advance (set_result sf (set (reg c) d r) r None None) (i_size i)) (with_imm i r).
Proof.
  intros py c i d v sf neg H Gd Wv [K A] r. begin_exec K A. unfold eval_Move.
  assert (Wr : word r) by (unfold r; destruct neg; [apply word_not|]; assumption).
  at_has. rewrite bind_assoc. at_attr. rewrite bind_ret. at_attr.
  assert (S2 : forall B (f : bs -> comp B),
    mbind (if neg then do r <- lift (bs_invert (bits 32 v)); do _ <- put_imm true r; ret r else ret (bits 32 v)) f (mkst c i)
    = f (bits 32 r) (mkst c (with_imm i r))).
  { intros B f. unfold r. destruct neg.
    - rewrite bind_assoc. rewrite (bind_lift _ _ _ _ _ _ (not32 _ Wv)). rewrite bind_assoc. unfold put_imm. rewrite bind_setattr. rewrite !bind_ret. reflexivity.
    - rewrite bind_ret. rewrite (with_imm_same i _ Move v (conj K A)) by reflexivity. reflexivity. }
  rewrite S2. pose proof (attrs_with_imm i _ r A) as A'. erewrite bind_attr by (rewrite A'; reflexivity).
  apply (finish_move py c (with_imm i r) d r sf); try assumption. rewrite A'. reflexivity.
Qed.
(*@ex
Example C45_immediate_ex :
  let i := an_insn Move [D 0; Flags Always; Imm 0xff; Neg false] false in
  cpu_ok ex_state /\
  reg_after Py2 ex_state i 0 = 255 /\
  flag_C (reg_after Py2 ex_state i 16) = true.
Proof. split; [exact ex_state_ok|]. vm_compute. repeat split; reflexivity. Qed.
@*)

(** ** pc-relative address, extension, byte reversal *)
Lemma align4 : forall v, word v -> Align_bits (bits 32 v) 4 = Ok (bits 32 (v - v mod 4)).
Proof.
  intros v V. unfold Align_bits. cbn [assert_ negb Z.eqb bind]. rewrite bits_bw. rewrite init_int by lia. cbn [bind].
  change (4 - 1) with 3. rewrite not32 by (unfold word; lia). cbn [bind].
  rewrite (and_ok _ _ (bv (bits 32 (2 ^ 32 - 1 - 3)))) by (apply wf32 || reflexivity). rewrite bits_bw, bv_word by assumption.
  f_equal. f_equal. change (bv (bits 32 (2 ^ 32 - 1 - 3))) with (2 ^ 32 - 4).
  rewrite <- land_lnot3. apply Z.bits_inj'. intros j J. rewrite !Z.land_spec.
  destruct (Z_lt_ge_dec j 32) as [L|L]; [|rewrite word_testbit by (assumption || lia); reflexivity].
  f_equal. change (2 ^ 32 - 4) with ((Z.lnot 3) mod 2 ^ 32). rewrite testbit_mod by lia.
  replace (j <? 32) with true by lia. reflexivity.
Qed.
Lemma align_word : forall v, word v -> word (v - v mod 4).
Proof. intros v V. unfold word in *. pose proof (Z.mod_pos_bound v 4). pose proof (Z.mod_le v 4). lia. Qed.
Lemma pc_base_word : forall pc, word (pc_base pc).
Proof. intros. apply align_word. apply word_wrap. Qed.
Lemma offset_ok : forall (add : bool) a b, word a -> word b ->
  (if add then bs_add (bits 32 a) (VBits (bits 32 b)) else bs_sub (bits 32 a) (VBits (bits 32 b))) = Ok (bits 32 (offset_from add a b)).
Proof. intros add a b A B. unfold offset_from. rewrite bits_wrap. destruct add; [apply add_bits|apply sub_bits]; assumption. Qed.
Lemma base_run : forall c B (f : bs -> comp B) i, regs_ok c ->
  mbind (getc pc_for_instr) (fun pc => mbind (lift (Align_bits pc 4)) f) (mkst c i) = f (bits 32 (pc_base (reg c 15))) (mkst c i).
Proof.
  intros c B f i H. rewrite (bind_getc _ _ _ _ _ _ _ (pc4_run c H)). rewrite <- bits_wrap.
  rewrite (bind_lift _ _ _ _ _ _ (align4 _ (word_wrap _))). reflexivity.
Qed.
(*@doc C53, adr. @*)
Lemma C53_adr_proof : forall py c i d v add, regs_ok c -> gpr d -> word v ->
  is_insn i AddressToRegister [D d; Imm v; Add add] ->
  let r := offset_from add (pc_base (reg c 15)) v in
  runs py c i (advance (set (reg c) d r) (i_size i)) i.
Proof.
  intros py c i d v add H Gd Wv [K A] r. begin_exec K A. unfold eval_AddressToRegister.
  at_attr. rewrite base_run by assumption. at_attr.
  rewrite (bind_lift _ _ _ _ _ _ (offset_ok add _ _ (pc_base_word _) Wv)). at_attr.
  apply (finish_plain c i d r); try assumption. apply word_wrap.
Qed.
(*@ex
Example C53_adr_ex :
  let i := an_insn AddressToRegister [D 0; Imm 8; Add true] false in
  cpu_ok ex_state /\
  reg_after Py2 ex_state i 0 = 44 /\
  reg_after Py2 ex_state i 15 = 36.
Proof. split; [exact ex_state_ok|]. vm_compute. repeat split; reflexivity. Qed.
@*)

Lemma ror32 : forall v n, word v -> 0 <= n -> ROR (bits 32 v) n = Ok (bits 32 (rotr 32 v n)).
Proof.
  intros v n V Hn. unfold ROR. destruct (n =? 0) eqn:E.
  - apply Z.eqb_eq in E. subst. unfold rotr. cbn [Z.modulo]. change (0 mod 32) with 0. rewrite Z.pow_0_r, Z.div_1_r, Z.mod_1_r. rewrite Z.mul_0_l, Z.add_0_r. reflexivity.
  - rewrite (ROR_C_ok (bits 32 v) n (wf32 v)) by (cbn; lia). rewrite bits_bw, bv_word by assumption. reflexivity.
Qed.
(*@doc C51, sxtb/sxth/uxtb/uxth. @*)
Lemma C51_extend_proof : forall py c i d m sf rot w sgn, regs_ok c -> gpr d -> gpr m -> 0 <= rot -> w = 8 \/ w = 16 ->
  is_insn i Extend [D d; M m; Flags sf; Rot rot; Wid w; Sgn sgn] ->
  let r := extended w sgn (rotr 32 (reg c m) rot) in
  runs py c i (advance (set (reg c) d r) (i_size i)) i.
Proof.
  intros py c i d m sf rot w sgn H Gd Gm Hr Hw [K A] r. begin_exec K A. unfold eval_Extend.
  pose proof (word_gpr c m H Gm) as Wm. pose proof (rotr_range 32 (reg c m) rot ltac:(lia) Wm) as Wr.
  at_attr. at_get. at_attr. rewrite (bind_lift _ _ _ _ _ _ (ror32 _ _ Wm Hr)). at_attr.
  assert (E : bs_getitem (bits 32 (rotr 32 (reg c m) rot)) (KSlice (sl 0 w)) = Ok (bits w (rotr 32 (reg c m) rot))).
  { rewrite C04_simple_slice_proof by (try apply wf32; cbn; lia). rewrite bv_word by assumption.
    change (2 ^ 0) with 1. rewrite Z.div_1_r, Z.sub_0_r. reflexivity. }
  rewrite (bind_lift _ _ _ _ _ _ E). at_attr.
  assert (E2 : (if sgn then bs_sign_extend (bits w (rotr 32 (reg c m) rot)) 32 else bs_zero_extend (bits w (rotr 32 (reg c m) rot)) 32) = Ok (bits 32 r)).
  { unfold r, extended, sext. destruct sgn.
    - rewrite sign_extend_ok by (try (apply wf_bits; lia); cbn; lia). rewrite bits_bw, bits_bv, twos_mod by lia. rewrite bits_wrap. reflexivity.
    - rewrite zero_extend_ok by (try (apply wf_bits; lia); cbn; lia). rewrite bits_bv. reflexivity. }
  rewrite (bind_lift _ _ _ _ _ _ E2). at_attr. apply (finish_plain c i d r); try assumption.
  unfold r, extended. destruct sgn; [apply word_wrap|].
  assert (0 <= rotr 32 (reg c m) rot mod 2 ^ w < 2 ^ w) by (apply Z.mod_pos_bound; apply pow2_pos; lia).
  unfold word. destruct Hw; subst w; cbn in *; lia.
Qed.
(*@ex
Example C51_extend_ex :
  let i := an_insn Extend [D 0; M 2; Flags Never; Rot 0; Wid 8; Sgn true] false in
  cpu_ok ex_state /\
  reg_after Py2 ex_state i 0 = 0xfffffff0.
Proof. split; [exact ex_state_ok|]. vm_compute. repeat split; reflexivity. Qed.
@*)
