(** * Consequences and counterexamples: properties C42, C45-C50, C54 *)
From Coq Require Import Lia ZifyBool.
From Verif Require Import BitstringModel SpecBits BitFacts BitOps BitMisc BitText BitThms HelpersModel SpecArm HelpFacts HelpThms UtilFacts CpuModel SpecCpu
  CpuFacts CpuThms InsnModel TableModel IsaThms ExecModel SpecExec ExecFacts ExecArithThms ExecMiscThms ExecMemThms ExecMultiThms ExecShape ExecRows ExecWholeThms SpecIsa SpecWhole.
Local Open Scope bool_scope.
Local Open Scope Z_scope.
(*@imports
From Coq Require Import Lia.
From Verif Require Import BitstringModel SpecBits SpecArm CpuModel SpecCpu InsnModel TableModel ExecModel SpecExec ExecFacts SpecIsa SpecWhole ExecRefThms.
@*)

Lemma ex_with_ok : forall l, Forall (fun p => word (snd p)) l -> cpu_ok (ex_with l).
Proof.
  intros l F. destruct ex_state_ok as (R & S & ME).
  assert (G : Forall cop_ok (map (fun '(k, v) => CopR k (NInt v)) l)).
  { induction F as [|[k v] l W F IH]; cbn [map]; constructor; [exact W|exact IH]. }
  destruct (C36_invariant_proof ex_state (map (fun '(k, v) => CopR k (NInt v)) l) R ME G) as [A B].
  split; [exact A|]. split; [apply C37_sp_mirror_proof; exact S|exact B].
Qed.
Lemma pair_split : forall A B (a a' : A) (b b' : B), (a, b) = (a', b') -> a = a' /\ b = b'.
Proof. intros A B a a' b b' E. split; congruence. Qed.
Ltac pairs E := repeat (let E' := fresh E in apply pair_split in E; destruct E as [E E']).
Ltac bytes_tac := repeat apply Forall_cons; try apply Forall_nil; unfold word; cbn [snd]; lia.
(** ** C42 *)
(*@doc C42: addition and subtraction are right when the result is not negative as a signed
number: destination, N, Z, C and V. Missing: the other half of the results (see
C42_refuted); what is stored for them is in C42_register_partial. @*)
Lemma C42_nonnegative_partial_proof : forall py c i d n m v sf uc sub, regs_ok c -> gpr d -> gpr n -> gpr m -> word v ->
  let x := reg c 16 in let a := reg c n in
  (let b := operand2 sub (reg c m) in let ci := carry_in sub uc x in let r := (a + b + ci) mod 2 ^ 32 in
   r < 2 ^ 31 -> is_insn i AddSub [D d; N n; M m; Flags sf; Carry uc; Sub sub] ->
   runs py c i (advance (set_result sf (set (reg c) d r) r (Some (carry_of a b ci)) (Some (overflow_of a b ci))) (i_size i)) i) /\
  (let b := operand2 sub v in let ci := carry_in sub uc x in let r := (a + b + ci) mod 2 ^ 32 in
   r < 2 ^ 31 -> v < 2 ^ 31 -> is_insn i AddSub [D d; N n; Flags sf; Imm v; Carry uc; Sub sub] ->
   runs py c i (advance (set_result sf (set (reg c) d r) r (Some (carry_of a b ci)) (Some (overflow_of a b ci))) (i_size i)) i) /\
  (let b := operand2 true a in let r := (v - a) mod 2 ^ 32 in
   r < 2 ^ 31 -> v < 2 ^ 31 -> is_insn i ReverseSubtract [D d; N n; Flags sf; Imm v] ->
   runs py c i (advance (set_result sf (set (reg c) d r) r (Some (carry_of b v 1)) (Some (overflow_of b v 1))) (i_size i)) i).
Proof.
  intros py c i d n m v sf uc sub R GD GN GM V x a. split; [|split].
  - intros b ci r S H. pose proof (C42_register_partial_proof py c i d n m sf uc sub R GD GN GM H) as Q. cbv zeta in Q.
    fold x a b ci in Q. unfold wrap in Q. fold r in Q. rewrite (flip_small r S) in Q. exact Q.
  - intros b ci r S SV H. pose proof (C42_immediate_partial_proof py c i d n v sf uc sub R GD GN V H) as Q. cbv zeta in Q.
    fold x a b ci in Q. unfold wrap in Q. fold r in Q. rewrite (flip_small r S), (flip_small v SV) in Q.
    rewrite (with_imm_same i _ _ v H eq_refl) in Q. exact Q.
  - intros b r S SV H. pose proof (C42_reverse_partial_proof py c i d n v sf R GD GN V H) as Q. cbv zeta in Q.
    fold a in Q. unfold wrap in Q. fold b r in Q. rewrite (flip_small r S), (flip_small v SV) in Q.
    rewrite (with_imm_same i _ _ v H eq_refl) in Q. exact Q.
Qed.
(*@ex
Example C42_nonnegative_partial_ex : exists i, decode_bytes Py2 [229; 31] 34 = Ok i /\
  is_insn i AddSub [D 5; N 4; Flags NotInITBlock; Imm 7; Carry false; Sub true] /\
  (reg ex_state 4 + operand2 true 7 + carry_in true false (reg ex_state 16)) mod 2 ^ 32 = 305419889 /\ 305419889 < 2 ^ 31 /\
  reg_after Py2 ex_state i 5 = 305419889.
Proof. eexists. split; [vm_compute; reflexivity|]. split; [split; vm_compute; reflexivity|]. vm_compute. repeat split; reflexivity. Qed.
@*)

(*@doc C42: refuted: adds r0, r0, r1 with r0 = 0x80000000 and r1 = 0 stores 0x7fffffff and
clears N; with r0 = 0xffffffff it stores 0 and sets Z. @*)
Lemma C42_refuted_proof : exists i c c', from_bytes Py2 i /\ is_insn i AddSub [D 0; N 0; M 1; Flags NotInITBlock; Carry false; Sub false] /\
  cpu_ok c /\ reg c 0 = 2 ^ 31 /\ reg c 1 = 0 /\ reg_after Py2 c i 0 = 2 ^ 31 - 1 /\ flag_N (xpsr_after Py2 c i) = false /\
  cpu_ok c' /\ reg c' 0 = 2 ^ 32 - 1 /\ reg c' 1 = 0 /\ reg_after Py2 c' i 0 = 0 /\ flag_Z (xpsr_after Py2 c' i) = true.
Proof.
  assert (X : exists i, decode_bytes Py2 [64; 24] 34 = Ok i /\ is_insn i AddSub [D 0; N 0; M 1; Flags NotInITBlock; Carry false; Sub false] /\
    let c := ex_with [(0, 2 ^ 31); (1, 0)] in let c' := ex_with [(0, 2 ^ 32 - 1); (1, 0)] in
    (reg c 0, reg c 1, reg_after Py2 c i 0, flag_N (xpsr_after Py2 c i), reg c' 0, reg c' 1, reg_after Py2 c' i 0, flag_Z (xpsr_after Py2 c' i))
    = (2 ^ 31, 0, 2 ^ 31 - 1, false, 2 ^ 32 - 1, 0, 0, true)).
  { eexists. split; [vm_compute; reflexivity|]. split; [split; vm_compute; reflexivity|]. vm_compute. reflexivity. }
  destruct X as (i & D & K & E). cbv zeta in E. pairs E.
  exists i, (ex_with [(0, 2 ^ 31); (1, 0)]), (ex_with [(0, 2 ^ 32 - 1); (1, 0)]).
  split; [exists [64; 24], 34; split; [bytes_tac|exact D]|]. split; [exact K|]. split; [apply ex_with_ok; bytes_tac|].
  repeat (split; [assumption|]). split; [apply ex_with_ok; bytes_tac|]. repeat (split; [assumption|]). assumption.
Qed.

(** ** C45 *)
(*@doc C45: every mvn.w with a shifted register raises NameError and does nothing. @*)
Lemma C45_shifted_refuted_proof : exists i, from_bytes Py2 i /\ i_klass i = ShiftedMoveNegate /\
  forall py c, execute py c i = (mkst c i, Err NameError).
Proof.
  assert (X : exists i, decode_bytes Py2 [111; 234; 1; 0] 34 = Ok i /\ i_klass i = ShiftedMoveNegate).
  { eexists. split; vm_compute; reflexivity. }
  destruct X as (i & D & K). exists i. split; [exists [111; 234; 1; 0], 34; split; [bytes_tac|exact D]|]. split; [exact K|].
  intros py c. apply mvn_shifted_fails. exact K.
Qed.

(** ** C46 *)
Lemma compare_flags : forall a b, word a -> word b ->
  let nb := operand2 true b in let r := flip (wrap (a + nb + 1)) in let s := (a - b) mod 2 ^ 32 in
  carry_of a nb 1 = (b <=? a) /\
  (s <> 2 ^ 32 - 1 -> (r =? 0) = (a =? b)) /\
  (s < 2 ^ 31 -> overflow_of a nb 1 = (twos 32 a <? twos 32 b)).
Proof.
  intros a b [A A'] [B B'] nb r s. unfold operand2 in nb.
  assert (S : wrap (a + nb + 1) = s).
  { unfold wrap, s, nb. replace (a + (2 ^ 32 - 1 - b) + 1) with (a - b + 1 * 2 ^ 32) by lia. apply Z_mod_plus_full. }
  assert (C : s = a - b \/ s = a - b + 2 ^ 32 /\ a < b).
  { destruct (Z_lt_ge_dec a b) as [L|L]; unfold s.
    - right. split; [|exact L]. rewrite <- (Z_mod_plus_full (a - b) 1). apply Z.mod_small. lia.
    - left. apply Z.mod_small. lia. }
  assert (P : 0 <= s) by (apply Z.mod_pos_bound; lia).
  split; [|split].
  - unfold carry_of, nb. destruct (b <=? a) eqn:E; lia.
  - intros NE. unfold r. rewrite S. unfold flip. change (2 ^ 31) with 2147483648. change (2 ^ 32) with 4294967296 in *. 
    destruct (s <? 2147483648) eqn:F; destruct (a =? b) eqn:G; lia.
  - intros L. unfold overflow_of. unfold nb at 1 2. clear S r. clearbody s. clear nb. unfold twos. cbv zeta. rewrite !(Z.mod_small a), !(Z.mod_small b) by lia.
    rewrite !(Z.mod_small (2 ^ 32 - 1 - b)) by lia.
    change (2 ^ (32 - 1)) with 2147483648 in *. change (2 ^ 31) with 2147483648 in *. change (2 ^ 32) with 4294967296 in *.
    destruct (a <? 2147483648) eqn:Fa; destruct (b <? 2147483648) eqn:Fb; destruct (4294967296 - 1 - b <? 2147483648) eqn:Fc;
    match goal with |- negb (?x && ?y) = ?z => destruct x eqn:?, y eqn:?, z eqn:? end; cbn [negb andb]; lia.
Qed.
Lemma put_flags_bits : forall x n z c v, let y := put_flags x (Some n) (Some z) (Some c) (Some v) in
  flag_N y = n /\ flag_Z y = z /\ flag_C y = c /\ flag_V y = v.
Proof.
  intros x n z c v y. unfold y, flag_N, flag_Z, flag_C, flag_V, put_flags, opt_bit.
  rewrite !put_bit_testbit by lia. repeat split; reflexivity.
Qed.

(*@doc C46: after cmp (register or immediate) cs and cc mean the unsigned comparison always;
eq, ne, hi and ls mean theirs unless a - b is 0xffffffff modulo 2^32; ge, lt, gt and le mean
theirs when a - b modulo 2^32 is below 2^31. Missing: the remaining cases, where the code
is wrong (C46_refuted). @*)
Lemma C46_conditions_partial_proof : forall py c i n b, regs_ok c -> gpr n ->
  (exists m, gpr m /\ is_insn i Compare [N n; M m; Neg true] /\ b = reg c m) \/ (word b /\ is_insn i Compare [N n; Imm b; Neg true]) ->
  let a := reg c n in let s := (a - b) mod 2 ^ 32 in let x := xpsr_after py c i in
  snd (execute py c i) = Ok tt /\
  (forall k, k = 2 \/ k = 3 -> holds_in k x = compares k a b) /\
  (s <> 2 ^ 32 - 1 -> forall k, k = 0 \/ k = 1 \/ k = 8 \/ k = 9 -> holds_in k x = compares k a b) /\
  (s < 2 ^ 31 -> forall k, 10 <= k <= 15 -> holds_in k x = compares k a b).
Proof.
  intros py c i n b R GN H a s x.
  assert (WB : word b) by (destruct H as [(m & GM & _ & ->)|[W _]]; [apply word_gpr; assumption|exact W]).
  assert (Q : exists i', runs py c i (advance (set_nzcv (reg c) (Some false) (Some (flip (wrap (a + operand2 true b + 1)) =? 0))
    (Some (carry_of a (operand2 true b) 1)) (Some (overflow_of a (operand2 true b) 1))) (i_size i)) i').
  { destruct H as [(m & GM & H & ->)|[W H]]; eexists.
    - exact (C46_compare_register_partial_proof py c i n m true R GN GM H).
    - exact (C46_compare_immediate_partial_proof py c i n b true R GN W H). }
  destruct Q as (i' & c' & E & _ & F). unfold x, xpsr_after. rewrite E. cbn [fst snd s_cpu]. split; [reflexivity|].
  rewrite (F 16) by (unfold core; lia).
  change (advance ?f ?n 16) with (f 16). change (set_nzcv ?f ?n ?z ?c ?v 16) with (put_flags (f 16) n z c v).
  destruct (put_flags_bits (reg c 16) false (flip (wrap (a + operand2 true b + 1)) =? 0) (carry_of a (operand2 true b) 1) (overflow_of a (operand2 true b) 1)) as (B1 & B2 & B3 & B4).
  unfold holds_in. rewrite B1, B2, B3, B4.
  destruct (compare_flags a b (word_gpr c n R GN) WB) as (K1 & K2 & K3). fold s in K2, K3. rewrite K1. split; [|split].
  - intros k [-> | ->]; cbn [condition_holds compares]; [reflexivity|]. destruct (b <=? a) eqn:L; lia.
  - intros NE. rewrite (K2 NE). intros k [-> |[-> |[-> | ->]]]; cbn [condition_holds compares]; try reflexivity; lia.
  - intros L. rewrite (K2 ltac:(change (2 ^ 31) with 2147483648 in L; change (2 ^ 32) with 4294967296; lia)), (K3 L). intros k HK.
    assert (T : (a =? b) = (twos 32 a =? twos 32 b)).
    { destruct (Z.eq_dec a b) as [->|NE]; [rewrite !Z.eqb_refl; reflexivity|]. rewrite (proj2 (Z.eqb_neq _ _) NE). symmetry. apply Z.eqb_neq.
      pose proof (word_gpr c n R GN) as WA. fold a in WA. unfold word in WA, WB. unfold twos. cbv zeta. rewrite !(Z.mod_small a), !(Z.mod_small b) by lia.
      change (2 ^ (32 - 1)) with 2147483648 in *. change (2 ^ 32) with 4294967296 in *. destruct (a <? 2147483648) eqn:?; destruct (b <? 2147483648) eqn:?; lia. }
    assert (D : k = 10 \/ k = 11 \/ k = 12 \/ k = 13 \/ k = 14 \/ k = 15) by lia.
    destruct D as [-> |[-> |[-> |[-> |[-> | ->]]]]]; cbn [condition_holds compares]; rewrite ?T; try reflexivity; destruct (twos 32 a <? twos 32 b) eqn:?; destruct (twos 32 a =? twos 32 b) eqn:?; cbn; lia.
Qed.
(*@ex
Example C46_conditions_partial_ex : exists i, decode_bytes Py2 [17; 43] 34 = Ok i /\ is_insn i Compare [N 3; Imm 17; Neg true] /\
  (reg ex_state 3 - 17) mod 2 ^ 32 = 4294967295 /\ (reg ex_state 4 - 17) mod 2 ^ 32 < 2 ^ 31 /\ holds_in 2 (xpsr_after Py2 ex_state i) = false.
Proof. eexists. split; [vm_compute; reflexivity|]. split; [split; vm_compute; reflexivity|]. vm_compute. repeat split; reflexivity. Qed.
@*)

(*@doc C46: refuted: after cmp r0, #1 with r0 = 0 the condition eq holds and lt does not. @*)
Lemma C46_refuted_proof : exists i c, from_bytes Py2 i /\ is_insn i Compare [N 0; Imm 1; Neg true] /\ cpu_ok c /\ reg c 0 = 0 /\
  holds_in 0 (xpsr_after Py2 c i) = true /\ holds_in 11 (xpsr_after Py2 c i) = false.
Proof.
  assert (X : exists i, decode_bytes Py2 [1; 40] 34 = Ok i /\ is_insn i Compare [N 0; Imm 1; Neg true] /\
    let c := ex_with [(0, 0)] in (reg c 0, holds_in 0 (xpsr_after Py2 c i), holds_in 11 (xpsr_after Py2 c i)) = (0, true, false)).
  { eexists. split; [vm_compute; reflexivity|]. split; [split; vm_compute; reflexivity|]. vm_compute. reflexivity. }
  destruct X as (i & D & K & E). cbv zeta in E. pairs E. exists i, (ex_with [(0, 0)]).
  split; [exists [1; 40], 34; split; [bytes_tac|exact D]|]. split; [exact K|]. split; [apply ex_with_ok; bytes_tac|]. repeat (split; [assumption|]). assumption.
Qed.

(** ** C47 *)
Definition row_branch (r : isa_row) : Prop := forall py w,
  match observed py r w with
  | Gives _ Branch l ops => (exists m link d, l = [M m; Link link; Cond 15; Delta d] /\ ops = [R m]) \/
      exists link k off, l = [Link link; Cond k; Delta 0; Imm (flipped off)] /\ ops = [LabelOp off] /\ 0 <= k <= 15 /\ - 2 ^ 24 <= off < 2 ^ 24
  | _ => True
  end.
Lemma twos_off : forall w v, 1 <= w <= 25 -> 0 <= v < 2 ^ w -> - 2 ^ 24 <= twos w v < 2 ^ 24.
Proof.
  intros w v W V. unfold twos. cbv zeta. rewrite !(Z.mod_small v) by exact V.
  pose proof (Z.pow_le_mono_r 2 (w - 1) 24 ltac:(lia) ltac:(lia)).
  assert (2 ^ w = 2 * 2 ^ (w - 1)) by (rewrite <- Z.pow_succ_r by lia; f_equal; lia).
  destruct (v <? 2 ^ (w - 1)) eqn:?; lia.
Qed.
Lemma rows_branch : Forall row_branch (isa16 ++ isa32).
Proof.
  apply Forall_app. split; unfold isa16, isa32; repeat (apply Forall_cons; [
    intros py w; unfold observed, documented; cbn [r_dev row row_dev r_text r_doc]; side_bounds w;
    repeat match goal with |- match (if ?b then _ else _) with _ => _ end => destruct b eqn:? end; cbv iota; try exact Logic.I;
    first [left; do 3 eexists; split; reflexivity |
      right; do 3 eexists; split; [reflexivity|split; [reflexivity|split; [lia|apply twos_off; [lia|first [apply bl_range; lia | lia]]]]]] |]);
  apply Forall_nil.
Qed.
Lemma branch_cases : forall py i, from_bytes py i -> i_klass i = Branch ->
  (exists m link d, i_attrs i = attributes [M m; Link link; Cond 15; Delta d] /\ i_operands i = [R m]) \/
  exists link k off, i_attrs i = attributes [Link link; Cond k; Delta 0; Imm (flipped off)] /\ i_operands i = [LabelOp off] /\ 0 <= k <= 15 /\ - 2 ^ 24 <= off < 2 ^ 24.
Proof.
  intros py i (data & a & B & E) K.
  assert (L : (2 <= List.length data)%nat) by (destruct (C30_bytes_proof py data a i B E) as (_ & _ & S & S'); destruct (in_dec Z.eq_dec _ _) in S; lia).
  destruct (decode_cases py data a B L) as [X|[X|[w [is32 [r [I [F [O [X D]]]]]]]]]; rewrite X in E; try discriminate E.
  pose proof (proj1 (Forall_forall _ _) rows_branch r I py w) as S.
  destruct (observed py r w) as [m k l ops| | |e]; cbn [decoded] in E; try discriminate E. injection E as <-. cbn [i_klass] in K. subst k.
  cbn [i_attrs i_operands]. destruct S as [(m0 & link & d & -> & ->)|(link & k & off & -> & -> & H)]; [left|right].
  - exists m0, link, d. split; reflexivity.
  - exists link, k, off. split; [reflexivity|]. split; [reflexivity|exact H].
Qed.

(*@doc C47: a decoded branch to a label, taken, goes to pc + 4 + offset, for forward offsets;
for a backward offset it goes to pc + 4 + (-1 - offset). The offset is the one the object
shows as its operand. Missing: backward branches (C47_backward_refuted). @*)
Lemma C47_label_partial_proof : forall py c i off k, regs_ok c -> from_bytes py i -> i_klass i = Branch -> i_operands i = [LabelOp off] ->
  a_cond (i_attrs i) = Some k -> holds_in k (reg c 16) = true ->
  snd (execute py c i) = Ok tt /\ reg_after py c i 15 = (reg c 15 + 4 + (if 0 <=? off then off else -1 - off)) mod 2 ^ 32.
Proof.
  intros py c i off k R B K O CD HD. destruct (branch_cases py i B K) as [(m & link & d & _ & O')|(link & k0 & off0 & A & O' & K0 & OF)]; [rewrite O in O'; discriminate O'|].
  assert (off0 = off) as -> by congruence. rewrite A in CD. injection CD as ->.
  pose proof (C47_immediate_proof py c i (flipped off) link k 0 R) as H.
  destruct H as (c' & E & _ & F).
  - apply flipped_word. change (2 ^ 32) with 4294967296. change (2 ^ 24) with 16777216 in OF. lia.
  - exact K0.
  - exact (conj K A).
  - unfold reg_after. rewrite E. cbn [fst snd s_cpu]. split; [reflexivity|]. rewrite (F 15) by (unfold core; lia). rewrite HD.
    change (set ?f 15 ?v 15) with v. unfold wrap. f_equal. unfold flipped. destruct (off <? 0) eqn:E1; destruct (0 <=? off) eqn:E2; lia.
Qed.
(*@ex
Example C47_label_partial_ex : exists i, decode_bytes Py2 [16; 208] 34 = Ok i /\ i_klass i = Branch /\ i_operands i = [LabelOp 32] /\ i_mnemonic i = "beq"%string /\
  let c := do_cops ex_state [CopFlag FZ (VInt 1)] in holds_in 0 (reg c 16) = true /\ reg_after Py2 c i 15 = 70.
Proof. eexists. split; [vm_compute; reflexivity|]. vm_compute. repeat split; reflexivity. Qed.
@*)

(*@doc C47: refuted: the branch to itself, shown with offset -4, goes seven bytes forward. @*)
Lemma C47_backward_refuted_proof : exists i c, from_bytes Py2 i /\ i_operands i = [LabelOp (-4)] /\ cpu_ok c /\
  reg_after Py2 c i 15 = reg c 15 + 7.
Proof.
  assert (X : exists i, decode_bytes Py2 [254; 231] 34 = Ok i /\ i_operands i = [LabelOp (-4)] /\ reg_after Py2 ex_state i 15 = reg ex_state 15 + 7).
  { eexists. split; [vm_compute; reflexivity|]. vm_compute. split; reflexivity. }
  destruct X as (i & D & O & E). exists i, ex_state. split; [exists [254; 231], 34; split; [bytes_tac|exact D]|]. split; [exact O|]. split; [exact ex_state_ok|exact E].
Qed.

(*@doc C47: refuted: blx lr goes to the return address it has just written to lr. @*)
Lemma C47_blx_lr_refuted_proof : exists i c, from_bytes Py2 i /\ i_mnemonic i = "blx"%string /\ i_operands i = [R 14] /\ cpu_ok c /\
  reg c 14 = 101 /\ reg c 15 = 34 /\ reg_after Py2 c i 15 = 36.
Proof.
  assert (X : exists i, decode_bytes Py2 [240; 71] 34 = Ok i /\ i_mnemonic i = "blx"%string /\ i_operands i = [R 14] /\
    let c := ex_with [(14, 101)] in (reg c 14, reg c 15, reg_after Py2 c i 15) = (101, 34, 36)).
  { eexists. split; [vm_compute; reflexivity|]. vm_compute. repeat split; reflexivity. }
  destruct X as (i & D & MN & O & E). cbv zeta in E. pairs E. exists i, (ex_with [(14, 101)]).
  split; [exists [240; 71], 34; split; [bytes_tac|exact D]|]. split; [exact MN|]. split; [exact O|]. split; [apply ex_with_ok; bytes_tac|].
  repeat (split; [assumption|]). assumption.
Qed.

(** ** C48 *)
(*@doc C48: every decoded load and store uses base plus or minus offset as address and asks
for no write-back. @*)
Lemma C48_no_write_back_proof : forall py i, from_bytes py i -> i_klass i = Load \/ i_klass i = Store ->
  a_index (i_attrs i) = Some true /\ a_wback (i_attrs i) = Some false.
Proof.
  intros py i B K. destruct (decoded_shaped py i B) as (l & SH & A). rewrite A.
  destruct SH; try (destruct K as [K|K]; discriminate K); split; reflexivity.
Qed.
(*@ex
Example C48_no_write_back_ex : exists i, decode_bytes Py2 [24; 104] 34 = Ok i /\ i_klass i = Load.
Proof. eexists. split; vm_compute; reflexivity. Qed.
@*)

(** ** C49, C50 *)
(*@doc C49: refuted on Python 3: after push {r0} and pop {r0} the stack pointer has moved by 4
and the pc has been read from memory. @*)
Lemma C49_python3_refuted_proof : exists i j c, from_bytes Py3 i /\ from_bytes Py3 j /\ is_insn i Push [Regs 1] /\ is_insn j Pop [Regs 1] /\ cpu_ok c /\
  let c1 := s_cpu (fst (execute Py3 c i)) in let c2 := s_cpu (fst (execute Py3 c1 j)) in
  snd (execute Py3 c i) = Ok tt /\ snd (execute Py3 c1 j) = Ok tt /\ reg c2 13 = reg c 13 - 4 /\ reg c2 15 = 0.
Proof.
  assert (X : exists i j, decode_bytes Py3 [1; 180] 34 = Ok i /\ decode_bytes Py3 [1; 188] 34 = Ok j /\ is_insn i Push [Regs 1] /\ is_insn j Pop [Regs 1] /\
    let c := ex_with [(13, 4)] in
    let c1 := s_cpu (fst (execute Py3 c i)) in let c2 := s_cpu (fst (execute Py3 c1 j)) in
    (snd (execute Py3 c i), snd (execute Py3 c1 j), reg c2 13, reg c2 15) = (Ok tt, Ok tt, reg c 13 - 4, 0)).
  { eexists. eexists. split; [vm_compute; reflexivity|]. split; [vm_compute; reflexivity|]. split; [split; vm_compute; reflexivity|]. split; [split; vm_compute; reflexivity|]. vm_compute. reflexivity. }
  destruct X as (i & j & D1 & D2 & K1 & K2 & E). cbv zeta in E. pairs E. exists i, j, (ex_with [(13, 4)]).
  split; [exists [1; 180], 34; split; [bytes_tac|exact D1]|]. split; [exists [1; 188], 34; split; [bytes_tac|exact D2]|].
  split; [exact K1|]. split; [exact K2|]. split; [apply ex_with_ok; bytes_tac|]. cbv zeta. repeat (split; [assumption|]). assumption.
Qed.

(*@doc C50: refuted on Python 3: stm r0!, {r1} stores fifteen words and moves r0 on by 60. @*)
Lemma C50_python3_refuted_proof : exists i c, from_bytes Py3 i /\ is_insn i StoreMultiple [N 0; Regs 2; Wb true] /\ cpu_ok c /\ reg c 0 = 0 /\
  reg_after Py3 c i 0 = 60 /\ reg c 4 = 305419896 /\ mem_after Py3 c i 16 = Some 120.
Proof.
  assert (X : exists i, decode_bytes Py3 [2; 192] 34 = Ok i /\ is_insn i StoreMultiple [N 0; Regs 2; Wb true] /\
    let c := ex_with [(0, 0)] in (reg c 0, reg_after Py3 c i 0, reg c 4, mem_after Py3 c i 16) = (0, 60, 305419896, Some 120)).
  { eexists. split; [vm_compute; reflexivity|]. split; [split; vm_compute; reflexivity|]. vm_compute. reflexivity. }
  destruct X as (i & D & K & E). cbv zeta in E. pairs E. exists i, (ex_with [(0, 0)]).
  split; [exists [2; 192], 34; split; [bytes_tac|exact D]|]. split; [exact K|]. split; [apply ex_with_ok; bytes_tac|]. repeat (split; [assumption|]). assumption.
Qed.

(** ** C54 *)
(*@doc C54: refuted: msr primask, r0 with r0 = 1 leaves primask 0; mrs r0, apsr raises TypeError;
mrs r0, ipsr in exception 64 gives 0. @*)
Lemma C54_refuted_proof : exists i j k c c', from_bytes Py2 i /\ from_bytes Py2 j /\ from_bytes Py2 k /\ cpu_ok c /\ cpu_ok c' /\
  is_insn i MoveToSpecial [N 0; Sys 16] /\ is_insn j MoveFromSpecial [D 0; Sys 0] /\ is_insn k MoveFromSpecial [D 0; Sys 5] /\
  reg c 0 = 1 /\ reg_after Py2 c i (-1) = 0 /\ snd (execute Py2 c j) = Err TypeError /\ reg c' 16 = 64 /\ reg_after Py2 c' k 0 = 0.
Proof.
  assert (X : exists i j k, decode_bytes Py2 [128; 243; 16; 136] 34 = Ok i /\ decode_bytes Py2 [239; 243; 0; 128] 34 = Ok j /\ decode_bytes Py2 [239; 243; 5; 128] 34 = Ok k /\
    is_insn i MoveToSpecial [N 0; Sys 16] /\ is_insn j MoveFromSpecial [D 0; Sys 0] /\ is_insn k MoveFromSpecial [D 0; Sys 5] /\
    let c := ex_with [(0, 1)] in let c' := do_cops ex_state [CopReg (RName "xpsr") (NInt 64)] in
    (reg c 0, reg_after Py2 c i (-1), snd (execute Py2 c j), reg c' 16, reg_after Py2 c' k 0) = (1, 0, Err TypeError, 64, 0)).
  { do 3 eexists. split; [vm_compute; reflexivity|]. split; [vm_compute; reflexivity|]. split; [vm_compute; reflexivity|].
    split; [split; vm_compute; reflexivity|]. split; [split; vm_compute; reflexivity|]. split; [split; vm_compute; reflexivity|]. vm_compute. reflexivity. }
  destruct X as (i & j & k & D1 & D2 & D3 & K1 & K2 & K3 & E). cbv zeta in E. pairs E.
  exists i, j, k, (ex_with [(0, 1)]), (do_cops ex_state [CopReg (RName "xpsr") (NInt 64)]).
  split; [exists [128; 243; 16; 136], 34; split; [bytes_tac|exact D1]|]. split; [exists [239; 243; 0; 128], 34; split; [bytes_tac|exact D2]|].
  split; [exists [239; 243; 5; 128], 34; split; [bytes_tac|exact D3]|]. split; [apply ex_with_ok; bytes_tac|].
  split.
  { destruct ex_state_ok as (R & S & ME).
    destruct (C36_invariant_proof ex_state [CopReg (RName "xpsr") (NInt 64)] R ME) as [A B].
    - constructor; [cbn [cop_ok num_val]; lia|constructor].
    - split; [exact A|]. split; [apply C37_sp_mirror_proof; exact S|exact B]. }
  split; [exact K1|]. split; [exact K2|]. split; [exact K3|]. repeat (split; [assumption|]). assumption.
Qed.
