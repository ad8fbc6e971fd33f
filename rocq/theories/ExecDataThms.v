(** * Effect of the data-processing instructions *)
From Coq Require Import Lia ZifyBool.
From Verif Require Import BitstringModel SpecBits BitFacts BitOps BitMisc BitThms HelpersModel SpecArm HelpFacts CpuModel SpecCpu
  CpuFacts CpuThms InsnModel ExecModel SpecExec ExecFacts SpecIsa.
(*@imports
From Coq Require Import Lia ZifyBool.
From Verif Require Import BitstringModel SpecBits BitFacts BitOps BitMisc BitThms HelpersModel SpecArm HelpFacts CpuModel SpecCpu
  CpuFacts CpuThms InsnModel ExecModel SpecExec ExecFacts ExecDataThms SpecIsa.
Local Open Scope bool_scope.
Local Open Scope Z_scope.
@*)
Local Open Scope bool_scope.
Local Open Scope Z_scope.

Lemma runs_intro : forall py c i i' c' f, execute py c i = (mkst c' i', Ok tt) -> c_mem c' = c_mem c ->
  (forall k, core k -> reg c' k = f k) -> runs py c i f i'.
Proof. intros. exists c'. split; [assumption|]. split; assumption. Qed.

Ltac begin_exec K A :=
  unfold runs, execute; match goal with |- context [i_klass ?i] => rewrite K end; cbn [eval].

Lemma word_land : forall a b, word a -> word b -> word (Z.land a b).
Proof.
  intros a b [A0 A1] [B0 B1]. split; [apply Z.land_nonneg; lia|].
  destruct (Z.eq_dec (Z.land a b) 0) as [->|N0]; [reflexivity|].
  apply Z.log2_lt_pow2; [pose proof (Z.land_nonneg a b); lia|].
  pose proof (Z.log2_land a b A0 B0). destruct (Z.eq_dec a 0) as [->|]; [rewrite Z.land_0_l in N0; lia|].
  pose proof (proj1 (Z.log2_lt_pow2 a 32 ltac:(lia)) A1). lia.
Qed.
Lemma word_bits : forall r, 0 <= r -> (forall i, 32 <= i -> Z.testbit r i = false) -> word r.
Proof.
  intros r P H. split; [assumption|]. destruct (Z.eq_dec r 0) as [->|N0]; [reflexivity|].
  apply Z.log2_lt_pow2; [lia|]. destruct (Z_lt_ge_dec (Z.log2 r) 32) as [L|L]; [assumption|].
  exfalso. specialize (H (Z.log2 r) ltac:(lia)). rewrite Z.bit_log2 in H by lia. discriminate.
Qed.
Lemma word_testbit : forall a i, word a -> 32 <= i -> Z.testbit a i = false.
Proof. intros. apply testbit_small with (w := 32); assumption. Qed.
Lemma word_lor : forall a b, word a -> word b -> word (Z.lor a b).
Proof.
  intros a b A B. apply word_bits; [apply Z.lor_nonneg; unfold word in *; lia|].
  intros i I. rewrite Z.lor_spec, !word_testbit by assumption. reflexivity.
Qed.
Lemma word_lxor : forall a b, word a -> word b -> word (Z.lxor a b).
Proof.
  intros a b A B. apply word_bits; [apply Z.lxor_nonneg; unfold word in *; lia|].
  intros i I. rewrite Z.lxor_spec, !word_testbit by assumption. reflexivity.
Qed.
Lemma bit_result_word : forall op a b, word a -> word b -> word (bit_result op a b).
Proof. intros [] a b A B; [apply word_land|apply word_lxor|apply word_lor]; assumption. Qed.
Lemma apply_op_ok : forall op a b, word a -> word b ->
  apply_op op (bits 32 a) (bits 32 b) = Ok (bits 32 (bit_result op a b)).
Proof.
  intros op a b A B. destruct op; cbn [apply_op bit_result].
  - rewrite (and_ok _ _ (bv (bits 32 b))) by (apply wf32 || reflexivity). rewrite !bv_word by assumption. reflexivity.
  - rewrite (xor_ok _ _ (bv (bits 32 b))) by (apply wf32 || reflexivity). rewrite !bv_word by assumption. reflexivity.
  - rewrite (or_ok _ _ (bv (bits 32 b))) by (apply wf32 || reflexivity). rewrite !bv_word by assumption. reflexivity.
Qed.

Lemma finish : forall (py : pyver) c i d r sf cf vf, regs_ok c -> gpr d -> word r -> a_setflags (i_attrs i) = Some sf ->
  exists c',
  mbind (rset d (bits 32 r)) (fun _ => mbind (set_flags (bits 32 r) (option_map bitv cf) (option_map bitv vf)) (fun _ => pc_next)) (mkst c i)
  = (mkst c' i, Ok tt) /\ c_mem c' = c_mem c /\
  forall k, core k -> reg c' k = advance (set_result sf (set (reg c) d r) r cf vf) (i_size i) k.
Proof.
  intros. destruct (finish_run c i d r sf cf vf) as (c' & E & M & _ & R); try assumption. exists c'. auto.
Qed.
Lemma finish_plain : forall c i d r, regs_ok c -> gpr d -> word r ->
  exists c', mbind (rset d (bits 32 r)) (fun _ => pc_next) (mkst c i) = (mkst c' i, Ok tt) /\
  c_mem c' = c_mem c /\ forall k, core k -> reg c' k = advance (set (reg c) d r) (i_size i) k.
Proof. intros. destruct (finish_plain_run c i d r) as (c' & E & M & _ & R); try assumption. exists c'. auto. Qed.
Ltac sflags := match goal with A : i_attrs ?i = _ |- a_setflags (i_attrs ?i) = _ => rewrite A; reflexivity end.

(*@doc C43, and/eor/orr: the destination, N and Z (C and V kept), the pc, nothing else. @*)
Lemma C43_bitop_proof : forall py c i d n m op sf, regs_ok c -> gpr d -> gpr n -> gpr m ->
  is_insn i BitOp [D d; N n; M m; Op op; Flags sf] ->
  let r := bit_result op (reg c n) (reg c m) in
  runs py c i (advance (set_result sf (set (reg c) d r) r None None) (i_size i)) i.
Proof.
  intros py c i d n m op sf H Gd Gn Gm [K A] r. begin_exec K A. unfold eval_BitOp.
  at_attr. at_attr. at_get. at_attr. at_get.
  rewrite (bind_lift _ _ _ _ _ _ (apply_op_ok op _ _ (word_gpr c n H Gn) (word_gpr c m H Gm))).
  at_attr. apply (finish py c i d r sf None None); try assumption; [|sflags].
  apply bit_result_word; apply word_gpr; assumption.
Qed.
(*@ex
Example C43_bitop_ex :
  let i := an_insn BitOp [D 0; N 1; M 4; Op OpAnd; Flags Always] false in
  cpu_ok ex_state /\
  reg_after Py2 ex_state i 0 = 0 /\
  reg_after Py2 ex_state i 15 = 36 /\
  flag_Z (reg_after Py2 ex_state i 16) = true /\
  flag_C (reg_after Py2 ex_state i 16) = true.
Proof. split; [exact ex_state_ok|]. vm_compute. repeat split; reflexivity. Qed.
@*)
(*@doc C43, bic. @*)
Lemma C43_bic_proof : forall py c i d n m sf, regs_ok c -> gpr d -> gpr n -> gpr m ->
  is_insn i BitClear [D d; N n; M m; Flags sf] ->
  let r := Z.land (reg c n) (2 ^ 32 - 1 - reg c m) in
  runs py c i (advance (set_result sf (set (reg c) d r) r None None) (i_size i)) i.
Proof.
  intros py c i d n m sf H Gd Gn Gm [K A] r. begin_exec K A. unfold eval_BitClear.
  pose proof (word_gpr c n H Gn) as Wn. pose proof (word_gpr c m H Gm) as Wm.
  at_attr. at_get. at_attr. at_get.
  rewrite (bind_lift _ _ _ _ _ _ (invert_ok _ (wf32 _))). cbn [bw bits]. rewrite bv_word by assumption.
  assert (W' : word (2 ^ 32 - 1 - reg c m)) by (unfold word in *; lia).
  rewrite (bind_lift _ _ _ _ _ _ (apply_op_ok OpAnd _ _ Wn W')). cbn [bit_result].
  at_attr. apply (finish py c i d r sf None None); try assumption; [|sflags].
  apply word_land; assumption.
Qed.
(*@ex
Example C43_bic_ex :
  let i := an_insn BitClear [D 0; N 1; M 4; Flags Always] false in
  cpu_ok ex_state /\
  reg_after Py2 ex_state i 0 = 0x80000001 /\
  flag_N (reg_after Py2 ex_state i 16) = true.
Proof. split; [exact ex_state_ok|]. vm_compute. repeat split; reflexivity. Qed.
@*)

Lemma shift_result_word : forall t v n c, word v -> 0 <= n -> (t = SR_RRX -> n = 1) -> word (fst (shift_result t 32 v n c)).
Proof.
  intros t v n c V Hn Ht. unfold shift_result. destruct (n =? 0) eqn:E; [assumption|].
  assert (P : 0 < n) by lia. pose proof (pow2_pos n ltac:(lia)).
  destruct t; cbn [fst]; try assumption; try (apply Z.mod_pos_bound; reflexivity).
  - unfold word in *. split; [apply Z.div_pos; lia|]. apply Z.div_lt_upper_bound; [lia|].
    nia.
  - apply rotr_range; [lia|assumption].
  - unfold word in *. change (2 ^ (32 - 1)) with 2147483648. change (2 ^ 32) with 4294967296 in *.
    assert (0 <= v / 2 < 2147483648) by (split; [apply Z.div_pos; lia|apply Z.div_lt_upper_bound; lia]).
    destruct c; lia.
Qed.
Lemma shift32 : forall t v n c, word v -> 0 <= n -> (t = SR_RRX -> n = 1) ->
  Shift_C (bits 32 v) t n (bitv c) = Ok (bits 32 (fst (shift_result t 32 v n c)), bitv (snd (shift_result t 32 v n c))).
Proof.
  intros t v n c V Hn Ht. rewrite (Shift_C_ok (bits 32 v) t n c (wf32 v)); [|cbn; lia|assumption|assumption].
  rewrite bits_bw, bv_word by assumption. reflexivity.
Qed.

(*@doc C44, lsl/lsr/asr/ror/rrx by an immediate amount; the carry out goes to C. @*)
Lemma C44_shift_imm_proof : forall py c i d n ty amount sf, regs_ok c -> gpr d -> gpr n -> 0 <= amount -> (ty = SR_RRX -> amount = 1) ->
  is_insn i ShiftOp [D d; N n; Flags sf; Ty ty; ShN amount] ->
  let (r, cf) := shift_result ty 32 (reg c n) amount (flag_C (reg c 16)) in
  runs py c i (advance (set_result sf (set (reg c) d r) r (Some cf) None) (i_size i)) i.
Proof.
  intros py c i d n ty amount sf H Gd Gn Ha Ht [K A].
  destruct (shift_result ty 32 (reg c n) amount (flag_C (reg c 16))) as [r cf] eqn:E.
  begin_exec K A. unfold eval_ShiftOp. pose proof (word_gpr c n H Gn) as Wn.
  at_has. at_attr. at_attr. at_get. at_attr. rewrite bind_fget by assumption.
  erewrite bind_lift by (apply shift32; assumption). change (Z.testbit (reg c 16) (flag_bit FC)) with (flag_C (reg c 16)).
  rewrite E. cbv beta iota. cbn [fst snd]. at_attr.
  apply (finish py c i d r sf (Some cf) None); try assumption; [|sflags].
  pose proof (shift_result_word ty (reg c n) amount (flag_C (reg c 16)) Wn Ha Ht) as R. rewrite E in R. exact R.
Qed.
(*@ex
Example C44_shift_imm_ex :
  let i := an_insn ShiftOp [D 0; N 1; Flags Always; Ty SR_ASR; ShN 4] false in
  cpu_ok ex_state /\
  reg_after Py2 ex_state i 0 = 0xf8000000 /\
  flag_C (reg_after Py2 ex_state i 16) = false /\
  flag_N (reg_after Py2 ex_state i 16) = true.
Proof. split; [exact ex_state_ok|]. vm_compute. repeat split; reflexivity. Qed.
@*)
Lemma low_byte : forall v, word v -> bs_getitem (bits 32 v) (KSlice (sl 0 8)) = Ok (bits 8 v).
Proof.
  intros v V. rewrite C04_simple_slice_proof by (try apply wf32; cbn; lia). rewrite bv_word by assumption.
  change (2 ^ 0) with 1. rewrite Z.div_1_r. reflexivity.
Qed.
(*@doc C44, by the low byte of a register. @*)
Lemma C44_shift_reg_proof : forall py c i d n m ty sf, regs_ok c -> gpr d -> gpr n -> gpr m -> ty <> SR_RRX ->
  is_insn i ShiftOp [D d; N n; M m; Flags sf; Ty ty] ->
  let (r, cf) := shift_result ty 32 (reg c n) (reg c m mod 256) (flag_C (reg c 16)) in
  runs py c i (advance (set_result sf (set (reg c) d r) r (Some cf) None) (i_size i)) i.
Proof.
  intros py c i d n m ty sf H Gd Gn Gm Ht [K A].
  destruct (shift_result ty 32 (reg c n) (reg c m mod 256) (flag_C (reg c 16))) as [r cf] eqn:E.
  begin_exec K A. unfold eval_ShiftOp. pose proof (word_gpr c n H Gn) as Wn. pose proof (word_gpr c m H Gm) as Wm.
  pose proof (Z.mod_pos_bound (reg c m) 256 ltac:(lia)).
  at_has. rewrite bind_assoc. at_attr. rewrite bind_assoc. at_get.
  rewrite bind_assoc. rewrite (bind_lift _ _ _ _ _ _ (low_byte _ Wm)). rewrite bind_ret.
  at_attr. at_get. at_attr. rewrite bind_fget by assumption.
  change (bs_unsigned (bits 8 (reg c m))) with (reg c m mod 256).
  erewrite bind_lift by (apply shift32; [assumption|lia|congruence]). change (Z.testbit (reg c 16) (flag_bit FC)) with (flag_C (reg c 16)).
  rewrite E. cbv beta iota. cbn [fst snd]. at_attr.
  apply (finish py c i d r sf (Some cf) None); try assumption; [|sflags].
  pose proof (shift_result_word ty (reg c n) (reg c m mod 256) (flag_C (reg c 16)) Wn ltac:(lia) ltac:(congruence)) as R. rewrite E in R. exact R.
Qed.
(*@ex
Example C44_shift_reg_ex :
  let i := an_insn ShiftOp [D 0; N 1; M 3; Flags Always; Ty SR_ROR] false in
  cpu_ok ex_state /\
  reg_after Py2 ex_state i 0 = 0x00018000.
Proof. split; [exact ex_state_ok|]. vm_compute. repeat split; reflexivity. Qed.
@*)

Lemma wrap_mul_twos : forall a b, wrap (twos 32 a * twos 32 b) = wrap (a * b).
Proof.
  intros. unfold wrap. rewrite Z.mul_mod by discriminate.
  rewrite (proj2 (twos_range 32 a ltac:(lia))), (proj2 (twos_range 32 b ltac:(lia))). rewrite <- Z.mul_mod by discriminate. reflexivity.
Qed.
Lemma signed32 : forall v, word v -> exists b', bs_signed (bits 32 v) = Ok (b', twos 32 v).
Proof.
  intros v V. destruct (signed_value (bits 32 v) (wf32 v)) as (b' & E & _); [cbn; lia|]. exists b'. rewrite E.
  rewrite bv_word by assumption. reflexivity.
Qed.
(*@doc C52: the product modulo 2**32, N and Z. @*)
Lemma C52_multiply_proof : forall py c i d n m sf, regs_ok c -> gpr d -> gpr n -> gpr m ->
  is_insn i Multiply [D d; N n; M m; Flags sf] ->
  let r := wrap (reg c n * reg c m) in
  runs py c i (advance (set_result sf (set (reg c) d r) r None None) (i_size i)) i.
Proof.
  intros py c i d n m sf H Gd Gn Gm [K A] r. begin_exec K A. unfold eval_Multiply.
  at_attr. at_get. destruct (signed32 _ (word_gpr c n H Gn)) as (b1 & E1). rewrite (bind_lift _ _ _ _ _ _ E1). cbv beta iota.
  at_attr. at_get. destruct (signed32 _ (word_gpr c m H Gm)) as (b2 & E2). rewrite (bind_lift _ _ _ _ _ _ E2). cbv beta iota.
  rewrite (bind_lift _ _ _ _ _ _ (init_int _ 32 ltac:(lia))). at_attr.
  replace (bits 32 (twos 32 (reg c n) * twos 32 (reg c m))) with (bits 32 r)
    by (unfold r; rewrite <- wrap_mul_twos; apply bits_wrap).
  apply (finish py c i d r sf None None); try assumption; [apply word_wrap|sflags].
Qed.
(*@ex
Example C52_multiply_ex :
  let i := an_insn Multiply [D 0; N 2; M 2; Flags Always] false in
  cpu_ok ex_state /\
  reg_after Py2 ex_state i 0 = 256.
Proof. split; [exact ex_state_ok|]. vm_compute. repeat split; reflexivity. Qed.
@*)
