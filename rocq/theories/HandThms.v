(** * Instruction objects made by hand: proofs *)
From Coq Require Import Lia ZifyBool.
From Verif Require Import BitstringModel HelpersModel SpecBits BitFacts BitOps BitMisc SpecArm HelpFacts CpuModel InsnModel ExecModel SpecCpu SpecExec SpecIsa SpecWhole ExecFacts ExecArithThms ExecDataThms ExecMemThms ExecMiscThms SpecIsa.
Import ListNotations.
Local Open Scope string_scope.
Local Open Scope list_scope.
Local Open Scope Z_scope.
(*@imports
From Coq Require Import Lia.
From Verif Require Import InsnModel ExecModel SpecArm SpecCpu SpecExec SpecIsa SpecWhole ExecFacts ExecShape HandThms.
Import ListNotations.
Local Open Scope string_scope.
Local Open Scope list_scope.
Local Open Scope Z_scope.
@*)

Lemma no_group : forall y text, In text ["00000"; "00001"; "00010"] -> 24 <= y < 256 ->
  (let* x := bs_getitem (bits 8 y) (KSlice (sl 3 8)) in eq_text x text) = Ok false.
Proof.
  intros y text T Y. replace y with (24 + (y - 24)) by lia. set (v := y - 24). assert (V : 0 <= v < 232) by (unfold v; lia). clearbody v. clear Y. revert v V.
  destruct T as [<-|[<-|[<-|[]]]]; apply (sweep _ (fun v => let* x := bs_getitem (bits 8 (24 + v)) (KSlice (sl 3 8)) in eq_text x _) (fun _ => Ok false) 232); vm_compute; reflexivity.
Qed.
(*@doc C54, mrs with a number that names no special register, as only an object made by hand
    has it: zero is read. @*)
Lemma C54_mrs_other_proof : forall py c i d y, regs_ok c -> gpr d -> 0 <= y < 256 -> special y = false ->
  is_insn i MoveFromSpecial [D d; Sys y] -> runs py c i (advance (set (reg c) d 0) (i_size i)) i.
Proof.
  intros py c i d y H Gd Y Sy [K A].
  assert (SA : a_SYSm (i_attrs i) = Some (bits 8 y)) by (rewrite A; reflexivity).
  unfold runs, execute. rewrite K. cbn [eval]. unfold eval_MoveFromSpecial.
  rewrite (bind_lift _ _ _ _ _ _ (zeros_ok 32 ltac:(lia))).
  destruct (Z_lt_ge_dec y 24) as [L|L].
  - assert (Cy : In y [4; 10; 11; 12; 13; 14; 15; 21; 22; 23]) by (unfold special in Sy; cbn [In]; lia). clear Sy Y L. cbn [In] in Cy.
    destruct Cy as [<-|Cy].
    { at_sys SA. unfold mrs_xpsr. rewrite !bind_assoc. at_sys SA. rewrite !bind_assoc, bind_ret. rewrite !bind_assoc. at_sys SA. rewrite !bind_assoc, bind_ret, bind_assoc. at_sys SA.
      rewrite bind_ret. at_attr. apply finish_plain; try assumption. unfold word; lia. }
    do 6 (destruct Cy as [<-|Cy]; [
      at_sys SA; rewrite bind_assoc; at_sys SA; unfold mrs_sp; rewrite bind_assoc; rewrite (bind_getc _ _ _ _ _ _ _ (privileged_ok c H));
      destruct (privileged (reg c)); [rewrite bind_assoc; at_sys SA; rewrite bind_assoc; at_sys SA|]; rewrite bind_ret; at_attr; apply finish_plain; try assumption; unfold word; lia|]).
    do 3 (destruct Cy as [<-|Cy]; [
      at_sys SA; rewrite bind_assoc; at_sys SA; rewrite bind_assoc; at_sys SA; unfold mrs_mask; rewrite bind_assoc; at_sys SA; rewrite bind_assoc; at_sys SA;
      rewrite bind_assoc; at_sys SA; rewrite bind_assoc; at_sys SA; rewrite bind_assoc; at_sys SA; rewrite bind_ret; at_attr; apply finish_plain; try assumption; unfold word; lia|]).
    destruct Cy.
  - assert (Y' : 24 <= y < 256) by lia.
    rewrite (sysm_is_run _ _ _ _ _ _ _ _ _ SA (no_group y "00000" ltac:(cbn; tauto) Y')). cbv iota. rewrite bind_assoc.
    rewrite (sysm_is_run _ _ _ _ _ _ _ _ _ SA (no_group y "00001" ltac:(cbn; tauto) Y')). cbv iota. rewrite bind_assoc.
    rewrite (sysm_is_run _ _ _ _ _ _ _ _ _ SA (no_group y "00010" ltac:(cbn; tauto) Y')). cbv iota. rewrite bind_ret. at_attr.
    apply finish_plain; try assumption. unfold word; lia.
Qed.
(*@ex
Example C54_mrs_other_ex : let i := an_insn MoveFromSpecial [D 0; Sys 10] true in special 10 = false /\
  cpu_ok ex_state /\ reg ex_state 0 = 7 /\ reg_after Py2 ex_state i 0 = 0 /\ reg_after Py2 ex_state i 15 = 38.
Proof. split; [reflexivity|]. split; [exact ex_state_ok|]. vm_compute. repeat split; reflexivity. Qed.
@*)

(*@doc C96, uxt and sxt of any width from 1 to 32. @*)
Lemma C96_extend_proof : forall py c i d m sf rot w sgn, regs_ok c -> gpr d -> gpr m -> 0 <= rot -> 1 <= w <= 32 ->
  is_insn i Extend [D d; M m; Flags sf; Rot rot; Wid w; Sgn sgn] ->
  let r := extended w sgn (rotr 32 (reg c m) rot) in
  runs py c i (advance (set (reg c) d r) (i_size i)) i.
Proof.
  intros py c i d m sf rot w sgn H Gd Gm Hr Hw [K A] r. begin_exec K A. unfold eval_Extend.
  pose proof (word_gpr c m H Gm) as Wm. pose proof (rotr_range 32 (reg c m) rot ltac:(lia) Wm) as Wr.
  at_attr. at_get. at_attr. rewrite (bind_lift _ _ _ _ _ _ (ror32 _ _ Wm Hr)). at_attr.
  assert (E : bs_getitem (bits 32 (rotr 32 (reg c m) rot)) (KSlice (sl 0 w)) = Ok (bits w (rotr 32 (reg c m) rot))).
  { rewrite BitThms.C04_simple_slice_proof by (try apply wf32; cbn; lia). rewrite bv_word by assumption.
    change (2 ^ 0) with 1. rewrite Z.div_1_r, Z.sub_0_r. reflexivity. }
  rewrite (bind_lift _ _ _ _ _ _ E). at_attr.
  assert (E2 : (if sgn then bs_sign_extend (bits w (rotr 32 (reg c m) rot)) 32 else bs_zero_extend (bits w (rotr 32 (reg c m) rot)) 32) = Ok (bits 32 r)).
  { unfold r, extended, sext. destruct sgn.
    - rewrite sign_extend_ok by (try (apply wf_bits; lia); cbn; lia). rewrite bits_bw, bits_bv, twos_mod by lia. rewrite bits_wrap. reflexivity.
    - rewrite zero_extend_ok by (try (apply wf_bits; lia); cbn; lia). rewrite bits_bv. reflexivity. }
  rewrite (bind_lift _ _ _ _ _ _ E2). at_attr. apply (finish_plain c i d r); try assumption.
  unfold r, extended. destruct sgn; [apply word_wrap|].
  assert (0 <= rotr 32 (reg c m) rot mod 2 ^ w < 2 ^ w) by (apply Z.mod_pos_bound; apply pow2_pos; lia).
  assert (2 ^ w <= 2 ^ 32) by (apply Z.pow_le_mono_r; lia). unfold word. lia.
Qed.
(*@ex
Example C96_extend_ex : let i := an_insn Extend [D 0; M 4; Flags Never; Rot 4; Wid 12; Sgn true] true in
  cpu_ok ex_state /\ reg ex_state 4 = 0x12345678 /\ reg_after Py2 ex_state i 0 = 0x567.
Proof. split; [exact ex_state_ok|]. vm_compute. repeat split; reflexivity. Qed.
@*)

(*@doc C96, rev with a width other than 4 and 2: zero. @*)
Lemma C96_byte_reverse_proof : forall py c i d m w sgn, regs_ok c -> gpr d -> gpr m -> w <> 4 -> w <> 2 ->
  is_insn i ByteReverse [D d; M m; Wid w; Sgn sgn] -> runs py c i (advance (set (reg c) d 0) (i_size i)) i.
Proof.
  intros py c i d m w sgn H Gd Gm W4 W2 [K A]. begin_exec K A. unfold eval_ByteReverse.
  rewrite (bind_lift _ _ _ _ _ _ (zeros_ok 32 ltac:(lia))). at_attr. at_get. at_attr.
  replace (w =? 4) with false by lia. replace (w =? 2) with false by lia. rewrite bind_ret. at_attr.
  apply finish_plain; try assumption. unfold word; lia.
Qed.
(*@ex
Example C96_byte_reverse_ex : let i := an_insn ByteReverse [D 0; M 4; Wid 3; Sgn false] true in
  cpu_ok ex_state /\ reg ex_state 0 = 7 /\ reg_after Py2 ex_state i 0 = 0.
Proof. split; [exact ex_state_ok|]. vm_compute. repeat split; reflexivity. Qed.
@*)

(** An amount for which the shift of a kind asserts. *)
Lemma shift_asserts : forall x ty n cin, (ty = SR_RRX /\ n <> 1) \/ n < 0 /\ (ty = SR_LSL \/ ty = SR_LSR \/ ty = SR_ASR) ->
  Shift_C x ty n cin = Err AssertionError.
Proof.
  intros x ty n cin [[-> N]|[N T]]; unfold Shift_C.
  - cbn [sr_eqb andb]. replace (n =? 1) with false by lia. reflexivity.
  - replace (n =? 0) with false by lia. assert (P : (0 <? n) = false) by lia.
    destruct T as [-> |[-> | ->]]; cbn [sr_eqb andb negb assert_ bind orb]; [unfold LSL_C|unfold LSR_C|unfold ASR_C]; rewrite P; reflexivity.
Qed.
(*@doc C96, a shift with a negative amount, or an RRX not by one: AssertionError, and nothing
    has changed. @*)
Lemma C96_shift_proof : forall py c i d n ty amount sf, regs_ok c -> gpr n ->
  (ty = SR_RRX /\ amount <> 1) \/ amount < 0 /\ (ty = SR_LSL \/ ty = SR_LSR \/ ty = SR_ASR) ->
  is_insn i ShiftOp [D d; N n; Flags sf; Ty ty; ShN amount] -> execute py c i = (mkst c i, Err AssertionError).
Proof.
  intros py c i d n ty amount sf H Gn B [K A]. unfold execute. rewrite K. cbn [eval]. unfold eval_ShiftOp.
  at_has. at_attr. at_attr. at_get. at_attr. rewrite bind_fget by assumption. unfold mbind at 1. unfold lift at 1. rewrite shift_asserts by exact B. reflexivity.
Qed.
(*@ex
Example C96_shift_ex : cpu_ok ex_state /\
  execute Py2 ex_state (an_insn ShiftOp [D 0; N 1; Flags Never; Ty SR_LSR; ShN (-1)] false) =
    (mkst ex_state (an_insn ShiftOp [D 0; N 1; Flags Never; Ty SR_LSR; ShN (-1)] false), Err AssertionError) /\
  snd (execute Py2 ex_state (an_insn ShiftOp [D 0; N 1; Flags Never; Ty SR_ROR; ShN (-1)] false)) = Ok tt.
Proof. split; [exact ex_state_ok|]. vm_compute. split; reflexivity. Qed.
@*)
(*@doc C96, the same for tst. @*)
Lemma C96_test_proof : forall py c i n m ty amount, regs_ok c -> gpr m ->
  (ty = SR_RRX /\ amount <> 1) \/ amount < 0 /\ (ty = SR_LSL \/ ty = SR_LSR \/ ty = SR_ASR) ->
  is_insn i Test [N n; M m; ShT ty; ShN amount] -> execute py c i = (mkst c i, Err AssertionError).
Proof.
  intros py c i n m ty amount H Gm B [K A]. unfold execute. rewrite K. cbn [eval]. unfold eval_Test.
  at_attr. at_get. at_attr. at_attr. rewrite bind_fget by assumption. unfold mbind at 1. unfold lift at 1. rewrite shift_asserts by exact B. reflexivity.
Qed.
(*@ex
Example C96_test_ex : cpu_ok ex_state /\
  snd (execute Py2 ex_state (an_insn Test [N 0; M 1; ShT SR_RRX; ShN 2] false)) = Err AssertionError.
Proof. split; [exact ex_state_ok|]. vm_compute. reflexivity. Qed.
@*)
(*@doc C96, a branch whose condition is not in the table: KeyError. @*)
Lemma C96_branch_proof : forall py c i l k, i_klass i = Branch -> i_attrs i = attributes l -> a_cond (attributes l) = Some k ->
  ~ (0 <= k <= 15) -> execute py c i = (mkst c i, Err KeyError).
Proof.
  intros py c i l k K A E N. unfold execute. rewrite K. cbn [eval]. unfold eval_Branch.
  rewrite (bind_attr _ _ a_cond k) by (rewrite A; exact E). unfold mbind at 1. unfold getc at 1.
  assert (X : condition_expr k (s_cpu (mkst c i)) = Err KeyError).
  { unfold condition_expr. repeat match goal with |- context [k =? ?n] => replace (k =? n) with false by lia end. reflexivity. }
  rewrite X. reflexivity.
Qed.
(*@ex
Example C96_branch_ex : snd (execute Py2 ex_state (an_insn Branch [M 0; Link false; Cond 16; Delta 0] false)) = Err KeyError.
Proof. vm_compute. reflexivity. Qed.
@*)

Lemma read_other : forall c a ms, 1 <= ms -> ~ size_ok ms -> read_memory c a ms = Ok (bits ms 0).
Proof.
  intros c a ms P N. unfold size_ok in N. unfold read_memory, mock_read_memory.
  replace (ms =? 8) with false by lia. replace (ms =? 16) with false by lia. replace (ms =? 32) with false by lia.
  destruct (find_mem c (num_val a)) as [[[? ?] ?]|]; cbn [bind]; apply init_int; lia.
Qed.
Lemma write_other : forall c a v ms, ~ size_ok ms -> write_memory c a v ms = Ok c.
Proof.
  intros c a v ms N. unfold size_ok in N. unfold write_memory, mock_write_memory.
  replace (ms =? 8) with false by lia. replace (ms =? 16) with false by lia. replace (ms =? 32) with false by lia.
  destruct (find_mem c (num_val a)) as [[[? ?] ?]|]; reflexivity.
Qed.
(*@doc C96, a literal load of a size the memory does not know: zero, wherever it reads. @*)
Lemma C96_load_proof : forall py c i t v add ms sgn, regs_ok c -> gpr t -> word v -> 1 <= ms <= 32 -> ~ size_ok ms ->
  is_insn i LoadLiteral [T t; Imm v; Add add; Mem ms; Sgn sgn] ->
  runs py c i (advance (set (reg c) t 0) (i_size i)) i.
Proof.
  intros py c i t v add ms sgn H Gt Wv P S [K A]. begin_exec K A. unfold eval_LoadLiteral.
  rewrite base_run by assumption. at_attr. at_attr. rewrite (bind_lift _ _ _ _ _ _ (offset_ok add _ _ (pc_base_word _) Wv)). at_attr.
  rewrite (bind_getc _ _ _ _ _ _ _ (read_other _ _ ms ltac:(lia) S)). at_attr.
  assert (W : wf (bits ms 0)) by (apply wf_bits; lia).
  assert (E : (if sgn then bs_sign_extend (bits ms 0) 32 else bs_zero_extend (bits ms 0) 32) = Ok (bits 32 0)).
  { destruct sgn.
    - rewrite sign_extend_ok by (try exact W; rewrite bits_bw; lia). rewrite bits_bw, bits_bv, Z.mod_0_l by (apply Z.pow_nonzero; lia).
      unfold twos. rewrite Z.mod_0_l by (apply Z.pow_nonzero; lia). destruct (0 <? 2 ^ (ms - 1)) eqn:L; [reflexivity|].
      pose proof (pow2_pos (ms - 1) ltac:(lia)). lia.
    - rewrite zero_extend_ok by (try exact W; rewrite bits_bw; lia). rewrite bits_bv, Z.mod_0_l by (apply Z.pow_nonzero; lia). reflexivity. }
  rewrite (bind_lift _ _ _ _ _ _ E). at_attr. apply finish_plain; try assumption. unfold word; lia.
Qed.
(*@ex
Example C96_load_ex : let i := an_insn LoadLiteral [T 0; Imm 20; Add false; Mem 24; Sgn true] true in
  cpu_ok ex_state /\ reg_after Py2 ex_state i 0 = 0.
Proof. split; [exact ex_state_ok|]. vm_compute. repeat split; reflexivity. Qed.
@*)
(*@doc C96, a store of a size the memory does not know: only the pc moves. @*)
Lemma C96_store_proof : forall py c i t n v idx add wb ms sgn, regs_ok c -> gpr t -> gpr n -> word v -> 1 <= ms <= 32 -> ~ size_ok ms ->
  is_insn i Store [T t; N n; Imm v; Idx idx; Add add; Wb wb; Mem ms; Sgn sgn] ->
  runs py c i (advance (reg c) (i_size i)) i.
Proof.
  intros py c i t n v idx add wb ms sgn H Gt Gn Wv P S [K A].
  unfold runs, execute. rewrite K. cbn [eval]. unfold eval_Store.
  rewrite (address_imm _ _ c i _ v add n idx H Gn Wv A) by reflexivity.
  destruct (addresses add idx (reg c n) v) as [oa ad] eqn:E.
  at_attr. at_get. at_attr. rewrite (bind_lift _ _ _ _ _ _ (low_slice (reg c t) ms (word_gpr c t H Gt) ltac:(lia))).
  rewrite (bind_setc _ _ c) by (apply write_other; exact S). apply next_only. assumption.
Qed.
(*@ex
Example C96_store_ex : let i := an_insn Store [T 4; N 3; Imm 4; Idx true; Add true; Wb false; Mem 24; Sgn false] false in
  cpu_ok ex_state /\ mem_after Py2 ex_state i 20 = cell ex_state 0 20 /\ reg_after Py2 ex_state i 15 = reg ex_state 15 + 2.
Proof. split; [exact ex_state_ok|]. vm_compute. repeat split; reflexivity. Qed.
@*)
