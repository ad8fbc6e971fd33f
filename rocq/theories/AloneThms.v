(** * Proofs about instructions executed without a delegate *)
From Coq Require Import ZArith List Lia Bool String ZifyBool.
From Verif Require Import BitstringModel SpecBits BitFacts BitOps BitMisc BitThms SpecArm SpecCpu InsnModel TableModel IsaOps IsaThms ExecModel SpecExec ExecFacts ExecArithThms
  ExecMultiThms ExecMiscThms ExecShape ExecRows SpecWhole AloneModel SpecAlone SpecIsa.
Import ListNotations.
Local Open Scope list_scope.
Local Open Scope bool_scope.
Local Open Scope Z_scope.

(*@imports
From Coq Require Import ZArith List Bool String.
From Verif Require Import BitstringModel SpecBits InsnModel ExecModel SpecExec SpecWhole AloneModel SpecAlone AloneThms SpecIsa.
Import ListNotations.
Local Open Scope list_scope.
Local Open Scope Z_scope.
@*)

(** ** Steps *)
Lemma ab_attr : forall A B (f : attrs -> option A) (k : A -> acomp B) i a, f (i_attrs i) = Some a -> abind (aattr f) k i = k a i.
Proof. intros A B f k i a E. unfold abind, aattr. rewrite E. reflexivity. Qed.
Lemma ab_has : forall A B (f : attrs -> option A) (k : bool -> acomp B) i,
  abind (ahasattr f) k i = k (match f (i_attrs i) with Some _ => true | None => false end) i.
Proof. reflexivity. Qed.
Lemma ab_get : forall B (f : option bs -> acomp B) k i, gpr k -> abind (arget k) f i = f None i.
Proof.
  intros B f k i [_ K]. unfold abind, arget, alift, g_ri_get. destruct (15 <? 0 + (0 + k)) eqn:E; [lia|]. reflexivity.
Qed.
Lemma ab_set : forall B (f : unit -> acomp B) k i, gpr k -> abind (arset k) f i = f tt i.
Proof. intros B f k i [_ K]. unfold abind, arset, alift, g_ri_set. destruct (15 <? 0 + k) eqn:E; [lia|]. reflexivity. Qed.
Lemma ab_ret : forall A B (a : A) (f : A -> acomp B) i, abind (aret a) f i = f a i.
Proof. reflexivity. Qed.
Lemma ab_assoc : forall A B C (m : acomp A) (f : A -> acomp B) (g : B -> acomp C) i,
  abind (abind m f) g i = abind m (fun a => abind (f a) g) i.
Proof. intros. unfold abind. destruct (m i) as [j [a|e]]; reflexivity. Qed.
Lemma ab_flag : forall B (f : bs -> acomp B) x i, abind (afget x) f i = (i, Err TypeError).
Proof. intros B f [] i; reflexivity. Qed.
Lemma ab_pc : forall B (f : bs -> acomp B) i, abind apc_for_instr f i = (i, Err TypeError).
Proof. reflexivity. Qed.
Lemma ab_priv : forall B (f : bool -> acomp B) i, abind ais_privileged f i = (i, Err TypeError).
Proof. reflexivity. Qed.
Lemma ab_ipsr : forall B (f : bs -> acomp B) i, abind aipsr f i = (i, Err TypeError).
Proof. reflexivity. Qed.
Lemma ab_use : forall A B e (g : bs -> res A) (f : A -> acomp B) i, abind (ause None e g) f i = (i, Err e).
Proof. reflexivity. Qed.
Lemma ab_lift : forall A B (r : res A) (f : A -> acomp B) a i, r = Ok a -> abind (alift r) f i = f a i.
Proof. intros A B r f a i ->. reflexivity. Qed.
Lemma next_type : forall i, apc_next i = (i, Err TypeError).
Proof. reflexivity. Qed.
Lemma ab_invert : forall B (f : unit -> acomp B) v i, word v -> abind (ainvert (Some (bits 32 v))) f i = f tt (with_imm i (2 ^ 32 - 1 - v)).
Proof. intros B f v i W. unfold ainvert, ause. rewrite ab_assoc, (ab_lift _ _ _ _ _ _ (not32 v W)). reflexivity. Qed.
Lemma ab_invert_none : forall B (f : unit -> acomp B) i, abind (ainvert None) f i = (i, Err TypeError).
Proof. reflexivity. Qed.
Lemma ab_listed : forall B (f : bool -> acomp B) py i v k, half v -> gpr k -> a_registers (i_attrs i) = Some (bits 16 v) ->
  abind (alisted py k) f i = f (is_listed py v k) i.
Proof.
  intros B f py i v k V K A. unfold alisted. rewrite ab_assoc, (ab_attr _ _ _ _ _ _ A), ab_assoc, (ab_lift _ _ _ _ _ _ (list_bit v k V K)), ab_ret.
  destruct py, (Z.testbit v k) eqn:E; cbn; rewrite ?E; reflexivity.
Qed.
Lemma ab_bytes : forall B (f : Z -> acomp B) i v, half v -> a_registers (i_attrs i) = Some (bits 16 v) ->
  abind alist_bytes f i = f (4 * ones_below 16 v) i.
Proof. intros B f i v V A. unfold alist_bytes. rewrite ab_assoc, (ab_attr _ _ _ _ _ _ A), ab_assoc, (ab_lift _ _ _ _ _ _ (count_b v V)). reflexivity. Qed.
Lemma ab_loop : forall B (f : unit -> acomp B) py i v l, half v -> a_registers (i_attrs i) = Some (bits 16 v) -> Forall gpr l ->
  abind (aloop py l None) f i = if existsb (is_listed py v) l then (i, Err TypeError) else f tt i.
Proof.
  intros B f py i v l V A F. induction F as [|k l K F IH]; [reflexivity|]. cbn [aloop existsb].
  rewrite ab_assoc, (ab_listed _ _ _ _ v k V K A). destruct (is_listed py v k); [|exact IH].
  rewrite ab_assoc, (ab_set _ _ k i K). reflexivity.
Qed.
Lemma range_gpr : Forall gpr (py_range 15).
Proof. repeat constructor; discriminate. Qed.
Lemma ab_is : forall B (f : bool -> acomp B) i y a b s r, a_SYSm (i_attrs i) = Some y ->
  (let* x := bs_getitem y (KSlice (sl a b)) in eq_text x s) = Ok r -> abind (asysm_is a b s) f i = f r i.
Proof.
  intros B f i y a b s r A E. unfold asysm_is. rewrite ab_assoc, (ab_attr _ _ _ _ _ _ A), ab_assoc.
  destruct (bs_getitem y (KSlice (sl a b))) as [x|e]; [|discriminate]. cbn [bind] in E. rewrite (ab_lift _ _ _ _ _ _ eq_refl).
  apply ab_lift. exact E.
Qed.
Lemma ab_bit : forall B (f : bool -> acomp B) i y k s r, a_SYSm (i_attrs i) = Some y ->
  (let* x := bs_getitem y (KInt k) in eq_text x s) = Ok r -> abind (asysm_bit k s) f i = f r i.
Proof.
  intros B f i y k s r A E. unfold asysm_bit. rewrite ab_assoc, (ab_attr _ _ _ _ _ _ A), ab_assoc.
  destruct (bs_getitem y (KInt k)) as [x|e]; [|discriminate]. cbn [bind] in E. rewrite (ab_lift _ _ _ _ _ _ eq_refl).
  apply ab_lift. exact E.
Qed.
Lemma ab_none_plus : forall B (f : bs -> acomp B) (add : bool) v i,
  exists r, abind (alift (if add then bs_radd v VNone else bs_rsub v VNone)) f i = f r i.
Proof. intros B f [] v i; eexists; reflexivity. Qed.

(** ** Register lists of decoded multiple loads *)
Definition row_list (r : isa_row) : Prop := forall py w,
  match observed py r w with Gives _ LoadMultiple [_; Regs v; _] _ => v mod 2 ^ 15 <> 0 | _ => True end.
Lemma ones_15 : forall v, half v -> ones_below 16 v >= 2 -> v mod 2 ^ 15 <> 0.
Proof.
  intros v [V V'] O E. pose proof (Z.div_mod v (2 ^ 15) ltac:(discriminate)) as D.
  assert (C : v = 0 \/ v = 2 ^ 15) by (change (2 ^ 16) with 65536 in *; change (2 ^ 15) with 32768 in *; lia).
  destruct C as [-> | ->]; apply O; vm_compute; reflexivity.
Qed.
Ltac one_list := intros py w; unfold observed, documented; cbn [r_dev row row_dev r_text r_doc];
  side_bounds w;
  repeat match goal with |- match (if ?b then _ else _) with _ => _ end => destruct b eqn:? end;
  cbv iota; try exact Logic.I.
Lemma rows_list : Forall row_list (isa16 ++ isa32).
Proof.
  apply Forall_app. split; unfold isa16, isa32; repeat (apply Forall_cons; [one_list|]); try apply Forall_nil.
  - rewrite Z.mod_small by (change (2 ^ 15) with 32768; lia). lia.
  - apply ones_15; [unfold half, reglist; lia|lia].
Qed.
Lemma decoded_list : forall py i v, from_bytes py i -> i_klass i = LoadMultiple -> a_registers (i_attrs i) = Some (bits 16 v) -> half v ->
  v mod 2 ^ 15 <> 0.
Proof.
  intros py i v (data & a & B & E) K A V.
  assert (L : (2 <= List.length data)%nat) by (destruct (C30_bytes_proof py data a i B E) as (_ & _ & S & S'); destruct (in_dec Z.eq_dec _ _) in S; lia).
  destruct (decode_cases py data a B L) as [X|[X|[w [is32 [r [I [F [O [X D]]]]]]]]]; rewrite X in E; try discriminate E.
  pose proof (proj1 (Forall_forall _ _) rows_list r I py w) as S.
  pose proof (proj1 (Forall_forall _ _) rows_shape r I py w) as S2.
  destruct (observed py r w) as [m k l ops| | |e]; cbn [decoded] in E; try discriminate E. injection E as <-.
  cbn [i_klass i_attrs] in K, A. subst k. inversion S2; subst. cbn in A.
  assert (v = v0) as ->; [|exact S].
  injection A as A. rewrite !Z.mod_small in A by assumption. symmetry. exact A.
Qed.
Lemma some_listed : forall py v, half v -> v mod 2 ^ 15 <> 0 -> existsb (is_listed py v) (py_range 15) = true.
Proof.
  intros [] v V M; [|reflexivity].
  destruct (existsb (is_listed Py2 v) (py_range 15)) eqn:E; [reflexivity|exfalso]. apply M.
  apply Z.bits_inj_0. intros n. destruct (Z.ltb_spec n 0) as [N0|N0]; [apply Z.testbit_neg_r, N0|].
  destruct (Z.ltb_spec n 15) as [N1|N1]; [|apply Z.mod_pow2_bits_high; lia].
  rewrite Z.mod_pow2_bits_low by lia.
  destruct (Z.testbit v n) eqn:T; [|reflexivity]. exfalso.
  assert (X : existsb (is_listed Py2 v) (py_range 15) = true); [|congruence].
  apply existsb_exists. exists n. split; [|exact T]. unfold py_range. apply in_map_iff. exists (Z.to_nat n). split; [lia|apply in_seq; lia].
Qed.

(** ** Decoded instructions *)
Ltac stepA A := first
  [ rewrite ab_ret | rewrite ab_assoc | rewrite ab_has; rewrite A; cbn [attributes pick a_imm32 a_m a_shift_n]; cbv iota
  | rewrite ab_get by assumption | rewrite ab_set by assumption
  | rewrite ab_flag | rewrite ab_pc | rewrite ab_priv | rewrite ab_ipsr | rewrite ab_use | rewrite ab_invert_none
  | rewrite ab_invert by (assumption || (unfold word in *; lia))
  | erewrite ab_attr by (rewrite A; reflexivity); cbv iota
  | erewrite ab_attr by (cbn [with_imm set_attrs with_setflags with_imm32 i_attrs]; rewrite A; reflexivity); cbv iota ].
Ltac spec K A := unfold left_as, raised, complemented, with_immediate; rewrite <- ?K, ?A; cbn [attributes pick a_d a_n a_m a_t a_sub a_imm32 a_negate a_use_carry a_rotation wants is_pc bits bv].
Ltac plusA := match goal with |- context [abind (alift (if ?a then bs_radd ?v VNone else bs_rsub ?v VNone)) ?f ?i] =>
  destruct (ab_none_plus _ f a v i) as [? ->] end.
Ltac sysA A := first
  [ erewrite (ab_is _ _ _ _ _ _ _ true) by first [rewrite A; reflexivity | vm_compute; reflexivity]
  | erewrite (ab_is _ _ _ _ _ _ _ false) by first [rewrite A; reflexivity | vm_compute; reflexivity]
  | erewrite (ab_bit _ _ _ _ _ _ true) by first [rewrite A; reflexivity | vm_compute; reflexivity]
  | erewrite (ab_bit _ _ _ _ _ _ false) by first [rewrite A; reflexivity | vm_compute; reflexivity] ]; cbv iota.

(*@doc C99: on a CPU model without delegate every decoded instruction raises; which exception and
    what has become of the object depend on its class and attributes only. @*)
Lemma C99_alone_raises_proof : forall py i, from_bytes py i -> aexecute py i = (left_as i, Err (raised i)).
Proof.
  intros py i B. pose proof (decoded_list py i) as DL. destruct (decoded_shaped py i B) as (l & SH & A). unfold aexecute.
  remember (i_klass i) as k eqn:K. destruct SH; cbn [aeval];
  try (unfold aeval_Instruction, aeval_AddSub, aimm_or_m, aeval_BitOp, aeval_BitClear, aeval_ShiftOp, aeval_ReverseSubtract, aeval_Multiply,
      aeval_AddressToRegister, aeval_Extend, aeval_ByteReverse, aeval_Move, aeval_ShiftedMoveNegate, aeval_Compare, aeval_Test, aeval_Branch,
      aeval_Load, aeval_Store, aaddress_of, aeval_LoadLiteral, aeval_ChangeProcessorState, aeval_MoveToSpecial;
    repeat stepA A; spec K A; try reflexivity).
  - destruct sub, uc; cbn [orb andb negb]; repeat stepA A; reflexivity.
  - rewrite Z.mod_small by lia. destruct sub, uc; cbn [orb andb negb]; repeat stepA A; reflexivity.
  - destruct ((0 <=? k) && (k <=? 13)) eqn:E1; [repeat stepA A; reflexivity|]. destruct ((k =? 14) || (k =? 15)) eqn:E2; [reflexivity|lia].
  - destruct ((0 <=? k) && (k <=? 13)) eqn:E1; [repeat stepA A; reflexivity|]. destruct ((k =? 14) || (k =? 15)) eqn:E2; [reflexivity|lia].
  - destruct rot; cbn [Z.eqb]; repeat stepA A; reflexivity.
  - match goal with H : _ \/ _ |- _ => destruct H as [-> | ->] end; cbn [Z.eqb Pos.eqb]; repeat stepA A; reflexivity.
  - destruct (m =? 15) eqn:E; [unfold asetattr at 1; unfold abind at 1|]; repeat stepA A; destruct neg; repeat stepA A; reflexivity.
  - destruct neg; cbn [andb negb]; repeat stepA A; reflexivity.
  - rewrite Z.mod_small by assumption. destruct neg; cbn [andb negb]; repeat stepA A; reflexivity.
  - plusA. repeat stepA A. erewrite ab_lift by reflexivity. repeat stepA A. reflexivity.
  - plusA. repeat stepA A. reflexivity.
  - unfold aeval_Push. erewrite ab_lift by reflexivity. rewrite (ab_bytes _ _ _ v) by (assumption || (rewrite A; reflexivity)). spec K A. reflexivity.
  - unfold aeval_Pop. erewrite ab_lift by reflexivity. rewrite (ab_bytes _ _ _ v) by (assumption || (rewrite A; reflexivity)). spec K A. reflexivity.
  - assert (R : a_registers (i_attrs i) = Some (bits 16 v)) by (rewrite A; reflexivity).
    unfold aeval_LoadMultiple. repeat stepA A. rewrite (ab_loop _ _ _ _ v) by (assumption || exact range_gpr).
    rewrite some_listed; [spec K A; reflexivity|assumption|]. apply DL; auto.
  - assert (R : a_registers (i_attrs i) = Some (bits 16 v)) by (rewrite A; reflexivity).
    unfold aeval_StoreMultiple. repeat stepA A. rewrite (ab_loop _ _ _ _ v) by (assumption || exact range_gpr). spec K A.
    destruct (existsb _ _); [reflexivity|]. repeat stepA A. destruct wb; repeat stepA A; reflexivity.
  - assert (Cy : y = 0 \/ y = 1 \/ y = 2 \/ y = 3 \/ y = 5 \/ y = 6 \/ y = 7 \/ y = 8 \/ y = 9 \/ y = 16 \/ y = 17 \/ y = 18 \/ y = 19 \/ y = 20)
      by (unfold special in *; lia).
    unfold aeval_MoveFromSpecial, amrs_xpsr, amrs_mask. spec K A.
    destruct Cy as [-> |[-> |[-> |[-> |[-> |[-> |[-> |[-> |[-> |[-> |[-> |[-> |[-> | ->]]]]]]]]]]]]];
      repeat (sysA A || stepA A); reflexivity.
Qed.
(*@ex
Example C99_alone_raises_ex : let i := decode_bytes Py3 [10; 56] 0 in
  (match i with Ok i => (i_klass i, a_imm32 (i_attrs i)) | Err _ => (Branch, None) end) = (AddSub, Some (bits 32 10)) /\
  forall j, i = Ok j -> aexecute Py3 j = (with_imm j (2 ^ 32 - 11), Err AttributeError).
Proof.
  split; [vm_compute; reflexivity|]. intros j J. rewrite C99_alone_raises.
  - vm_compute in J. injection J as <-. reflexivity.
  - exists [10; 56], 0. split; [|exact J]. repeat constructor; discriminate.
Qed.
@*)

(*@doc C99: executing the object once more raises the same; the complemented immediate is
    restored. @*)
Lemma C99_alone_twice_proof : forall py i, from_bytes py i ->
  aexecute py (left_as i) = (match i_klass i with Move => left_as i | _ => i end, Err (raised i)).
Proof.
  intros py i B. pose proof (C99_alone_raises_proof py i B) as E. destruct (decoded_shaped py i B) as (l & SH & A).
  remember (i_klass i) as k eqn:K. destruct i as [mn wd i32 ad kl ops at0]. cbn [i_attrs i_klass] in A, K. subst kl at0.
  destruct SH; try exact E.
  - destruct sub; exact E.
  - destruct sub; [|exact E]. unfold left_as, complemented. cbn [i_klass i_attrs attributes pick a_sub wants a_imm32 bits bv].
    rewrite Z.mod_small by lia. set (j := with_imm _ _).
    assert (A : i_attrs j = attributes [D d; N n; Flags sf; Imm (2 ^ 32 - 1 - v); Carry uc; Sub true]) by reflexivity.
    assert (W : word (2 ^ 32 - 1 - v)) by (unfold word; lia).
    unfold aexecute. change (i_klass j) with AddSub. cbn [aeval]. unfold aeval_AddSub, aimm_or_m. repeat stepA A.
    unfold raised, with_immediate. cbn [i_klass i_attrs attributes pick a_use_carry a_sub a_imm32 wants andb negb orb].
    replace (2 ^ 32 - 1 - (2 ^ 32 - 1 - v)) with v by lia. destruct uc; repeat stepA A; reflexivity.
  - unfold left_as, raised in *. cbn [i_klass i_attrs attributes pick a_m is_pc] in *. destruct (m =? 15) eqn:Em; [|exact E].
    set (j := set_attrs _ _).
    assert (A : i_attrs j = attributes [D d; M m; Flags Never; Neg neg]) by reflexivity.
    unfold aexecute. change (i_klass j) with Move. cbn [aeval]. unfold aeval_Move. repeat stepA A. rewrite Em. unfold asetattr at 1; unfold abind at 1.
    repeat stepA A. destruct neg; repeat stepA A; reflexivity.
  - destruct neg; exact E.
  - destruct neg; [|exact E]. unfold left_as, complemented. cbn [i_klass i_attrs attributes pick a_negate wants a_imm32 bits bv].
    rewrite Z.mod_small by assumption. set (j := with_imm _ _).
    assert (A : i_attrs j = attributes [N n; Imm (2 ^ 32 - 1 - v); Neg true]) by reflexivity.
    assert (W : word (2 ^ 32 - 1 - v)) by (unfold word in *; lia).
    unfold aexecute. change (i_klass j) with Compare. cbn [aeval]. unfold aeval_Compare. repeat stepA A.
    replace (2 ^ 32 - 1 - (2 ^ 32 - 1 - v)) with v by lia. reflexivity.
Qed.
(*@ex
Example C99_alone_twice_ex : let i := decode_bytes Py3 [10; 40] 0 in
  (match i with Ok i => i_klass i | Err _ => Branch end) = Compare /\
  forall j, i = Ok j -> left_as j <> j /\ aexecute Py3 (left_as j) = (j, Err AttributeError).
Proof.
  split; [vm_compute; reflexivity|]. intros j J. rewrite (C99_alone_twice Py3 j).
  - vm_compute in J. injection J as <-. split; [discriminate|reflexivity].
  - exists [10; 40], 0. split; [|exact J]. repeat constructor; discriminate.
Qed.
@*)

(*@doc C99: [cpu.execute] of decoded instructions raises at the first one; the others are not
    touched. @*)
Lemma C99_alone_list_proof : forall py l, Forall (from_bytes py) l ->
  acpu_execute py l = match l with [] => ([], Ok tt) | i :: l' => (left_as i :: l', Err (raised i)) end.
Proof.
  intros py l F. destruct F as [|i l B F]; [reflexivity|]. cbn [acpu_execute]. rewrite (C99_alone_raises_proof py i B). reflexivity.
Qed.
(*@ex
Example C99_alone_list_ex : acpu_execute Py2 [an_insn Instruction [] false; an_insn Multiply [D 1; N 2; M 3; Flags Never] false] =
  ([an_insn Instruction [] false; an_insn Multiply [D 1; N 2; M 3; Flags Never] false], Err TypeError).
Proof. vm_compute. reflexivity. Qed.
@*)

(** ** Any object *)
Definition dies {A} (m : acomp A) : Prop := forall i j a, m i <> (j, Ok a).
Lemma dies_l : forall A B (m : acomp A) (f : A -> acomp B), dies m -> dies (abind m f).
Proof. intros A B m f H i j b E. unfold abind in E. destruct (m i) as [i' [a|e]] eqn:M; [exact (H _ _ _ M)|discriminate E]. Qed.
Lemma dies_r : forall A B (m : acomp A) (f : A -> acomp B), (forall a, dies (f a)) -> dies (abind m f).
Proof. intros A B m f H i j b E. unfold abind in E. destruct (m i) as [i' [a|e]] eqn:M; [exact (H _ _ _ _ E)|discriminate E]. Qed.
Lemma dies_get : forall B k (f : option bs -> acomp B), dies (f None) -> dies (abind (arget k) f).
Proof.
  intros B k f H i j b E. unfold abind, arget, alift, g_ri_get in E. destruct (15 <? 0 + (0 + k)); [discriminate E|]. exact (H _ _ _ E).
Qed.
Lemma dies_next : dies apc_next. Proof. intros i j a E. discriminate E. Qed.
Lemma dies_flag : forall f, dies (afget f). Proof. intros [] i j a E; discriminate E. Qed.
Lemma dies_pc : dies apc_for_instr. Proof. intros i j a E. discriminate E. Qed.
Lemma dies_use : forall A e (f : bs -> res A), dies (ause None e f). Proof. intros A e f i j a E. discriminate E. Qed.
Lemma dies_fail : forall A e, dies (@afail A e). Proof. intros A e i j a E. discriminate E. Qed.
Lemma dies_mem : forall B a n (f : option bs -> acomp B), dies (f None) -> dies (abind (alift (snd (g_read_memory nothing a n tt))) f).
Proof. intros B a n f H. exact H. Qed.
Lemma dies_reg : forall B n (f : option bs -> acomp B), dies (f None) -> dies (abind (alift (snd (g_read_register nothing n tt))) f).
Proof. intros B n f H. exact H. Qed.
Ltac die := first
  [ exact dies_next | apply dies_use | apply dies_fail
  | apply dies_l; first [exact dies_next | apply dies_flag | exact dies_pc]
  | apply dies_get; die | apply dies_mem; die | apply dies_reg; die | (apply dies_r; intros ?; die)
  | match goal with |- dies (if ?b then _ else _) => destruct b; die end ].

(** *** The object *)
Definition tame {A} (m : acomp A) : Prop := forall i, fst (m i) = i.
Lemma tame_bind : forall A B (m : acomp A) (f : A -> acomp B), tame m -> (forall a, tame (f a)) -> tame (abind m f).
Proof. intros A B m f H F i. unfold abind. specialize (H i). destruct (m i) as [i' [a|e]]; cbn in *; subst; [apply F|reflexivity]. Qed.
Lemma tame_lift : forall A (r : res A), tame (alift r). Proof. repeat intro. reflexivity. Qed.
Lemma tame_ret : forall A (a : A), tame (aret a). Proof. repeat intro. reflexivity. Qed.
Lemma tame_fail : forall A e, tame (@afail A e). Proof. repeat intro. reflexivity. Qed.
Lemma tame_attr : forall A (f : attrs -> option A), tame (aattr f). Proof. repeat intro. reflexivity. Qed.
Lemma tame_has : forall A (f : attrs -> option A), tame (ahasattr f). Proof. repeat intro. reflexivity. Qed.
Lemma tame_use : forall A o e (f : bs -> res A), tame (ause o e f). Proof. intros A [] e f i; reflexivity. Qed.
Lemma tame_next : tame apc_next. Proof. repeat intro. reflexivity. Qed.
Ltac tm := first
  [ apply tame_ret | apply tame_fail | apply tame_attr | apply tame_has | apply tame_use | exact tame_next | apply tame_lift
  | (apply tame_bind; [tm|intros ?; tm])
  | match goal with |- tame (if ?b then _ else _) => destruct b; tm end ].
Lemma tame_loop : forall py l a, tame (aloop py l a).
Proof. intros py l a. induction l as [|k l IH]; cbn [aloop]; [tm|]. unfold alisted. apply tame_bind; [tm|]. intros b. destruct b; [tm|exact IH]. Qed.
Lemma one_bit : forall r k b, bs_getitem r (KInt k) = Ok b -> bw b = 1.
Proof.
  intros r k b E. cbn [bs_getitem] in E. unfold bs_get_bit in E.
  repeat match type of E with bind ?m _ = _ => destruct m; [cbn [bind] in E|discriminate E] | (if ?c then _ else _) = _ => destruct c; try discriminate E end.
  all: rewrite init_int in E by lia; injection E as <-; reflexivity.
Qed.
Lemma loop_py3 : forall py l a, py = Py3 -> l <> [] -> a = None -> dies (aloop py l a).
Proof.
  intros py l a -> N0 ->. destruct l as [|k l]; [congruence|]. cbn [aloop]. unfold alisted. intros i j x E.
  unfold abind, aattr, alift, aret in E. destruct (a_registers (i_attrs i)) as [r|]; [|discriminate E].
  destruct (bs_getitem r (KInt k)) as [b|] eqn:G; [|discriminate E]. unfold bs_truthy in E. rewrite (one_bit _ _ _ G) in E. change (negb (1 =? 0)) with true in E. cbv iota beta in E.
  destruct (arset k i) as [i' [?|?]]; cbn in E; discriminate E.
Qed.
Lemma dies_mrs : dies aeval_MoveFromSpecial. Proof. unfold aeval_MoveFromSpecial. die. Qed.
Lemma dies_move : dies aeval_Move. Proof. unfold aeval_Move. die. Qed.
Lemma dies_reverse : dies aeval_ByteReverse.
Proof. unfold aeval_ByteReverse. apply dies_r; intros m. apply dies_get. apply dies_r; intros w. apply dies_r; intros u. die. Qed.
Lemma dies_shift : dies aeval_ShiftOp.
Proof. unfold aeval_ShiftOp. do 5 (apply dies_r; intros ?). apply dies_l, dies_flag. Qed.

(*@doc C99: whatever the object, it can only be executed without a delegate if it is a multiple load, and
    on Python 2; the object is then as it was. @*)
Lemma C99_alone_passes_proof : forall py i j, aexecute py i = (j, Ok tt) -> i_klass i = LoadMultiple /\ py = Py2 /\ j = i.
Proof.
  intros py i j E. unfold aexecute in E.
  assert (D : dies (aeval py (i_klass i)) \/ (i_klass i = LoadMultiple /\ py = Py2)).
  { destruct (i_klass i); cbn [aeval];
      try (left; unfold aeval_Instruction, aeval_AddSub, aeval_BitOp, aeval_BitClear, aeval_ReverseSubtract, aeval_Multiply, aeval_AddressToRegister,
        aeval_Extend, aeval_ShiftedMoveNegate, aeval_Compare, aeval_Test, aeval_Branch, aeval_Load, aeval_Store, aeval_LoadLiteral, aeval_Push, aeval_Pop,
        aeval_ChangeProcessorState, aeval_MoveToSpecial; die);
      try (left; exact dies_mrs); try (left; exact dies_move); try (left; exact dies_reverse); try (left; exact dies_shift).
    destruct py; [right; auto|left]. unfold aeval_LoadMultiple. apply dies_r; intros n. apply dies_get, dies_l, loop_py3; auto. discriminate. }
  destruct D as [D|[K P]]; [destruct (D _ _ _ E)|]. repeat split; try assumption.
  rewrite K in E. cbn [aeval] in E. assert (T : tame (aeval_LoadMultiple py)).
  { unfold aeval_LoadMultiple, alisted, alist_bytes. apply tame_bind; [tm|]. intros n. apply tame_bind; [tm|]. intros a. apply tame_bind; [apply tame_loop|]. intros u. tm. }
  specialize (T i). rewrite E in T. exact T.
Qed.
(*@ex
Example C99_alone_passes_ex : let i := an_insn LoadMultiple [N 3; Regs (2 ^ 15); Wb false] true in
  aexecute Py2 i = (i, Ok tt) /\ aexecute Py3 i = (i, Err TypeError).
Proof. split; vm_compute; reflexivity. Qed.
@*)

(*@doc C99: on Python 2 a multiple load passes exactly if it lists the pc alone and has nothing to
    write back. @*)
Lemma C99_alone_pc_only_proof : forall i n v wb, gpr n -> half v -> is_insn i LoadMultiple [N n; Regs v; Wb wb] ->
  aexecute Py2 i = (i, if (v =? 2 ^ 15) && (negb wb || (n =? 15)) then Ok tt else Err TypeError).
Proof.
  intros i n v wb Gn V [K A]. unfold aexecute. rewrite K. cbn [aeval]. unfold aeval_LoadMultiple.
  assert (R : a_registers (i_attrs i) = Some (bits 16 v)) by (rewrite A; reflexivity).
  repeat stepA A. rewrite (ab_loop _ _ _ _ v) by (assumption || exact range_gpr).
  destruct (Z.eq_dec (v mod 2 ^ 15) 0) as [M|M].
  - assert (C : v = 0 \/ v = 2 ^ 15).
    { pose proof (Z.div_mod v (2 ^ 15) ltac:(discriminate)) as D. unfold half in V. change (2 ^ 16) with 65536 in *; change (2 ^ 15) with 32768 in *; lia. }
    destruct C as [-> | ->].
    + cbn [existsb py_range is_listed]. change (existsb (is_listed Py2 0) (py_range 15)) with false. cbv iota.
      rewrite (ab_listed _ _ _ _ 0 15) by (assumption || (unfold gpr; lia)). reflexivity.
    + change (existsb (is_listed Py2 (2 ^ 15)) (py_range 15)) with false. cbv iota.
      rewrite (ab_listed _ _ _ _ (2 ^ 15) 15) by (assumption || (unfold gpr; lia)). change (is_listed Py2 (2 ^ 15) 15) with true. cbv iota.
      erewrite ab_lift by reflexivity. repeat stepA A. destruct wb; [|reflexivity]. repeat stepA A.
      rewrite (ab_lift _ _ _ _ _ _ (list_bit _ n V Gn)).
      change ((2 ^ 15 =? 2 ^ 15) && (negb true || (n =? 15))) with (n =? 15).
      assert (T : Z.testbit (2 ^ 15) n = (n =? 15)) by (rewrite Z.pow2_bits_eqb by lia; apply Z.eqb_sym). rewrite T.
      destruct (n =? 15) eqn:E.
      * erewrite ab_lift by (vm_compute; reflexivity). reflexivity.
      * erewrite ab_lift by (vm_compute; reflexivity). cbv iota. repeat stepA A. rewrite (ab_bytes _ _ _ _ V R). reflexivity.
  - rewrite (some_listed Py2 v V M). replace (v =? 2 ^ 15) with false; [reflexivity|]. symmetry. apply Z.eqb_neq. intros ->. apply M. reflexivity.
Qed.
(*@ex
Example C99_alone_pc_only_ex : map (fun '(n, v, wb) => snd (aexecute Py2 (an_insn LoadMultiple [N n; Regs v; Wb wb] true)))
    [(3, 0x8000, false); (15, 0x8000, true); (3, 0x8000, true); (3, 0x8001, false); (3, 0, false)] =
  [Ok tt; Ok tt; Err TypeError; Err TypeError; Err TypeError].
Proof. vm_compute. reflexivity. Qed.
@*)

(*@doc C99: objects that pass are passed over: [cpu.execute] goes on with the ones after them. @*)
Lemma C99_alone_goes_on_proof : forall l1 l2, Forall pc_only l1 ->
  acpu_execute Py2 (l1 ++ l2) = (l1 ++ fst (acpu_execute Py2 l2), snd (acpu_execute Py2 l2)).
Proof.
  intros l1 l2 F. induction F as [|i l1 (n & wb & Gn & I & W) F IH]; cbn [app acpu_execute].
  - destruct (acpu_execute Py2 l2); reflexivity.
  - rewrite (C99_alone_pc_only_proof i n (2 ^ 15) wb Gn ltac:(unfold half; lia) I).
    replace ((2 ^ 15 =? 2 ^ 15) && (negb wb || (n =? 15))) with true
      by (destruct wb; [rewrite W by reflexivity|]; reflexivity).
    rewrite IH. reflexivity.
Qed.
(*@ex
Example C99_alone_goes_on_ex : let i := an_insn LoadMultiple [N 3; Regs (2 ^ 15); Wb false] true in
  let j := an_insn ShiftedMoveNegate [] true in
  pc_only i /\ acpu_execute Py2 [i; i; j; i] = ([i; i; j; i], Err NameError).
Proof. split; [|vm_compute; reflexivity]. exists 3, false. repeat split; discriminate. Qed.
@*)

(** *** Objects that change *)
Definition same_bare (i j : insn) : Prop := bare j = bare i /\ with_immediate j = with_immediate i.
Lemma same_refl : forall i, same_bare i i. Proof. split; reflexivity. Qed.
Lemma same_trans : forall a b c, same_bare a b -> same_bare b c -> same_bare a c.
Proof. intros a b c [H1 H2] [H3 H4]. split; congruence. Qed.
Definition mild {A} (m : acomp A) : Prop := forall i, same_bare i (fst (m i)).
Lemma mild_tame : forall A (m : acomp A), tame m -> mild m.
Proof. intros A m H i. rewrite (H i). apply same_refl. Qed.
Lemma mild_bind : forall A B (m : acomp A) (f : A -> acomp B), mild m -> (forall a, mild (f a)) -> mild (abind m f).
Proof.
  intros A B m f H F i. unfold abind. specialize (H i). destruct (m i) as [i' [a|e]]; [|exact H]. eapply same_trans; [exact H|apply F].
Qed.
Lemma mild_setflags : forall v, mild (asetattr (with_setflags v)). Proof. intros v i. split; reflexivity. Qed.
Lemma invert_same : forall x i, x = None \/ with_immediate i = true -> same_bare i (fst (ainvert x i)).
Proof.
  intros x i [-> |H]; [apply same_refl|]. unfold ainvert, ause, abind. destruct x as [b|]; [|apply same_refl].
  unfold alift. destruct (bs_invert b); [|apply same_refl]. split; [reflexivity|]. unfold with_immediate at 1. cbn. symmetry. exact H.
Qed.
Lemma mild_after : forall B x (f : unit -> acomp B) i, x = None \/ with_immediate i = true -> (forall u, mild (f u)) ->
  same_bare i (fst (abind (ainvert x) f i)).
Proof.
  intros B x f i H F. pose proof (invert_same x i H) as S. unfold abind. destruct (ainvert x i) as [i' [a|e]]; [|exact S].
  eapply same_trans; [exact S|apply F].
Qed.
Lemma get_none : forall k i, arget k i = (i, Err KeyError) \/ arget k i = (i, Ok None).
Proof. intros k i. unfold arget, alift, g_ri_get. destruct (15 <? 0 + (0 + k)); [left|right]; reflexivity. Qed.

(*@doc C99: whatever the object, executing it changes at most its immediate and its wish to set
    flags, and only additions, comparisons and moves change at all. @*)
Lemma C99_alone_object_proof : forall py i, let j := fst (aexecute py i) in
  bare j = bare i /\ with_immediate j = with_immediate i /\ (changes_itself (i_klass i) = false -> j = i).
Proof.
  intros py i j.
  assert (T : changes_itself (i_klass i) = false -> j = i).
  { subst j. unfold aexecute. intros C. assert (X : tame (aeval py (i_klass i))); [|apply X].
    destruct (i_klass i); try discriminate C; cbn [aeval];
      try (unfold aeval_Instruction, aeval_BitOp, aeval_BitClear, aeval_ShiftOp, aeval_ReverseSubtract, aeval_Multiply, aeval_AddressToRegister,
        aeval_Extend, aeval_ByteReverse, aeval_ShiftedMoveNegate, aeval_Test, aeval_Branch, aeval_Load, aeval_Store, aaddress_of, aeval_LoadLiteral, aeval_Push, aeval_Pop, alist_bytes,
        aeval_ChangeProcessorState, aeval_MoveFromSpecial, amrs_xpsr, amrs_mask, asysm_is, asysm_bit, aeval_MoveToSpecial; tm). }
  enough (X : bare j = bare i /\ with_immediate j = with_immediate i) by (split; [apply X|split; [apply X|exact T]]).
  destruct (changes_itself (i_klass i)) eqn:C; [|rewrite T by reflexivity; split; reflexivity].
  clear T. subst j. unfold aexecute. fold (same_bare i (fst (aeval py (i_klass i) i))). destruct (i_klass i); try discriminate C; cbn [aeval]; clear C.
  - (* AddSub *)
    unfold aeval_AddSub. unfold abind at 1, aattr at 1. destruct (a_sub (i_attrs i)) as [sub|]; [|apply same_refl].
    unfold abind at 1, aattr at 1. destruct (a_n (i_attrs i)) as [n|]; [|apply same_refl].
    unfold abind at 1. destruct (get_none n i) as [-> | ->]; [apply same_refl|].
    assert (Y : exists y r, aimm_or_m i = (i, r) /\ (r = Ok y -> y = None \/ with_immediate i = true) /\ (forall z, r = Ok z -> z = y)).
    { unfold aimm_or_m, abind, ahasattr, with_immediate, aattr. destruct (a_imm32 (i_attrs i)) as [v|] eqn:V0; cbv beta iota; rewrite ?V0.
      - exists (Some v), (Ok (Some v)). split; [reflexivity|]. split; [right; reflexivity|]. intros z Z. congruence.
      - destruct (a_m (i_attrs i)) as [m|].
        + destruct (get_none m i) as [-> | ->]; [exists None, (Err KeyError)|exists None, (Ok None)]; (split; [reflexivity|split; [left; reflexivity|intros z Z; congruence]]).
        + exists None, (Err AttributeError). split; [reflexivity|split; [left; reflexivity|intros z Z; congruence]]. }
    destruct Y as (y & r & Y & H1 & H2). unfold abind at 1. rewrite Y. destruct r as [z|e]; [|apply same_refl].
    rewrite (H2 z eq_refl) in *. specialize (H1 eq_refl).
    assert (F : forall u : unit, mild (alone uc <- aattr a_use_carry; alone _ <- (if uc then alone _ <- afget FC; aret tt else aret tt); ause None AttributeError (fun _ => Ok tt)))
      by (intros u; apply mild_tame; tm).
    destruct sub; [|apply (F tt)]. apply mild_after; [exact H1|exact F].
  - (* Move *)
    unfold aeval_Move. unfold abind at 1, ahasattr at 1. destruct (a_m (i_attrs i)) as [m|] eqn:M0.
    + assert (F : forall o, o = None -> mild (alone neg <- aattr a_negate; alone _ <- (if neg then ainvert o else aret tt); alone d <- aattr a_d; alone _ <- arset d; alone _ <- afget FC; aret tt)).
      { intros o ->. apply mild_tame. apply tame_bind; [tm|]. intros neg. apply tame_bind; [destruct neg; [intros x; reflexivity|tm]|]. intros u. tm. }
      rewrite ab_assoc, (ab_attr _ _ _ _ _ _ M0), ab_assoc. unfold abind at 1. destruct (get_none m i) as [-> | ->]; [apply same_refl|].
      rewrite ab_assoc. apply (mild_bind _ _ _ _); [destruct (m =? 15); [apply mild_setflags|apply mild_tame; tm]|]. intros u. apply (F None eq_refl).
    + rewrite ab_assoc. unfold abind at 1, aattr at 1. destruct (a_imm32 (i_attrs i)) as [v|] eqn:V0; [|apply same_refl]. rewrite ab_ret.
      unfold abind at 1, aattr at 1. destruct (a_negate (i_attrs i)) as [neg|]; [|apply same_refl].
      assert (F : forall u : unit, mild (alone d <- aattr a_d; alone _ <- arset d; alone _ <- afget FC; aret tt)) by (intros u; apply mild_tame; tm).
      destruct neg; [|apply (F tt)]. apply mild_after; [right; unfold with_immediate; rewrite V0; reflexivity|exact F].
  - (* Compare *)
    assert (F : forall u : unit, mild (alone n <- aattr a_n; alone x <- arget n; ause x AttributeError (fun _ => Ok tt))) by (intros u; apply mild_tame; tm).
    unfold aeval_Compare. unfold abind at 1, ahasattr at 1. destruct (a_m (i_attrs i)) as [m|] eqn:M0.
    + rewrite ab_assoc, (ab_attr _ _ _ _ _ _ M0). unfold abind at 1. destruct (get_none m i) as [-> | ->]; [apply same_refl|].
      unfold abind at 1, aattr at 1. destruct (a_negate (i_attrs i)) as [neg|]; [|apply same_refl].
      destruct neg; [apply mild_after; [left; reflexivity|exact F]|apply (F tt)].
    + rewrite ab_assoc. unfold abind at 1, aattr at 1. destruct (a_imm32 (i_attrs i)) as [v|] eqn:V0; [|apply same_refl]. rewrite ab_ret.
      unfold abind at 1, aattr at 1. destruct (a_negate (i_attrs i)) as [neg|]; [|apply same_refl].
      destruct neg; [|apply (F tt)]. apply mild_after; [right; unfold with_immediate; rewrite V0; reflexivity|exact F].
Qed.
(*@ex
Example C99_alone_object_ex : let i := an_insn AddSub [N 3; Imm 5; Sub true] true in
  aexecute Py2 i = (with_imm i (2 ^ 32 - 6), Err AttributeError) /\ changes_itself (i_klass i) = true.
Proof. split; vm_compute; reflexivity. Qed.
@*)

Lemma table8 : forall (f : Z -> res bool) (g : Z -> bool),
  forallb (fun y => match f y with Ok b => Bool.eqb b (g y) | Err _ => false end) (map Z.of_nat (seq 0 256)) = true ->
  forall y, 0 <= y < 256 -> f y = Ok (g y).
Proof.
  intros f g H y Y. assert (Q : In y (map Z.of_nat (seq 0 256))) by (apply in_map_iff; exists (Z.to_nat y); split; [lia|apply in_seq; lia]).
  apply (proj1 (forallb_forall _ _) H) in Q. destruct (f y) as [b|e]; [|discriminate Q]. apply Bool.eqb_prop in Q. congruence.
Qed.
Lemma high_is : forall y, 0 <= y < 256 -> (let* x := bs_getitem (bits 8 y) (KSlice (sl 3 8)) in eq_text x "00000") = Ok (y / 8 =? 0) /\
  (let* x := bs_getitem (bits 8 y) (KSlice (sl 3 8)) in eq_text x "00001") = Ok (y / 8 =? 1) /\
  (let* x := bs_getitem (bits 8 y) (KSlice (sl 3 8)) in eq_text x "00010") = Ok (y / 8 =? 2).
Proof.
  intros y Y. split; [|split];
  [ apply (table8 (fun y => let* x := bs_getitem (bits 8 y) (KSlice (sl 3 8)) in eq_text x "00000") (fun y => y / 8 =? 0)); [vm_compute; reflexivity|exact Y]
  | apply (table8 (fun y => let* x := bs_getitem (bits 8 y) (KSlice (sl 3 8)) in eq_text x "00001") (fun y => y / 8 =? 1)); [vm_compute; reflexivity|exact Y]
  | apply (table8 (fun y => let* x := bs_getitem (bits 8 y) (KSlice (sl 3 8)) in eq_text x "00010") (fun y => y / 8 =? 2)); [vm_compute; reflexivity|exact Y] ].
Qed.
Lemma low_is : forall y k s, 0 <= y < 256 -> In (k, s) [(0, "000"); (1, "001"); (2, "010"); (3, "011"); (4, "100")]%string ->
  (let* x := bs_getitem (bits 8 y) (KSlice (sl 0 3)) in eq_text x s) = Ok (y mod 8 =? k).
Proof.
  intros y k s Y I. cbn [In] in I. repeat (destruct I as [I|I]; [injection I as <- <-;
    match goal with |- (let* x := _ in eq_text x ?s) = Ok (_ =? ?k) =>
      apply (table8 (fun y => let* x := bs_getitem (bits 8 y) (KSlice (sl 0 3)) in eq_text x s) (fun y => y mod 8 =? k)); [vm_compute; reflexivity|exact Y] end|]).
  destruct I.
Qed.
Lemma bit_is : forall y, 0 <= y < 256 -> (let* x := bs_getitem (bits 8 y) (KInt 0) in eq_text x "1") = Ok (Z.testbit y 0) /\
  (let* x := bs_getitem (bits 8 y) (KInt 1) in eq_text x "1") = Ok (Z.testbit y 1) /\
  (let* x := bs_getitem (bits 8 y) (KInt 2) in eq_text x "0") = Ok (negb (Z.testbit y 2)).
Proof.
  intros y Y. split; [|split];
  [ apply (table8 (fun y => let* x := bs_getitem (bits 8 y) (KInt 0) in eq_text x "1") (fun y => Z.testbit y 0)); [vm_compute; reflexivity|exact Y]
  | apply (table8 (fun y => let* x := bs_getitem (bits 8 y) (KInt 1) in eq_text x "1") (fun y => Z.testbit y 1)); [vm_compute; reflexivity|exact Y]
  | apply (table8 (fun y => let* x := bs_getitem (bits 8 y) (KInt 2) in eq_text x "0") (fun y => negb (Z.testbit y 2))); [vm_compute; reflexivity|exact Y] ].
Qed.

(*@doc C99, MRS: with any number as special register and any as destination, it is TypeError if the CPU
    has to be asked; otherwise the destination decides. @*)
Lemma C99_alone_mrs_proof : forall py i d y, 0 <= y < 256 -> is_insn i MoveFromSpecial [D d; Sys y] ->
  aexecute py i = (i, Err (if negb (asks y) && (15 <? d) then KeyError else TypeError)).
Proof.
  intros py i d y Y [K A]. unfold aexecute. rewrite K. cbn [aeval].
  assert (S : a_SYSm (i_attrs i) = Some (bits 8 y)) by (rewrite A; reflexivity).
  assert (D0 : a_d (i_attrs i) = Some d) by (rewrite A; reflexivity).
  assert (T : (alone d0 <- aattr a_d; alone _ <- arset d0; apc_next) i = (i, Err (if 15 <? d then KeyError else TypeError))).
  { rewrite (ab_attr _ _ _ _ _ _ D0). unfold abind at 1, arset, alift, g_ri_set. change (0 + d) with d. destruct (15 <? d); reflexivity. }
  unfold aeval_MoveFromSpecial, amrs_xpsr, amrs_mask. revert T. generalize (alone d0 <- aattr a_d; alone _ <- arset d0; apc_next). intros k T.
  destruct (high_is y Y) as (H0 & H1 & H2). destruct (bit_is y Y) as (B0 & B1 & B2).
  unfold asks. rewrite (ab_is _ _ _ _ _ _ _ _ S H0).
  destruct (Z.eqb_spec (y / 8) 0) as [E|E].
  { rewrite E. rewrite ab_assoc, (ab_bit _ _ _ _ _ _ _ S B0). destruct (Z.testbit y 0); [reflexivity|].
    rewrite ab_assoc, ab_ret, ab_assoc, (ab_bit _ _ _ _ _ _ _ S B1), ab_assoc, (ab_bit _ _ _ _ _ _ _ S B2).
    destruct (Z.testbit y 2); [exact T|reflexivity]. }
  rewrite ab_assoc, (ab_is _ _ _ _ _ _ _ _ S H1). destruct (Z.eqb_spec (y / 8) 1) as [E1|E1]; [rewrite E1; reflexivity|].
  rewrite ab_assoc, (ab_is _ _ _ _ _ _ _ _ S H2). destruct (Z.eqb_spec (y / 8) 2) as [E2|E2].
  - rewrite E2. pose proof (Z.mod_pos_bound y 8 ltac:(lia)) as MB.
    rewrite ab_assoc, (ab_is _ _ _ _ _ _ _ _ S (low_is y 0 "000" Y ltac:(cbn; auto))).
    destruct (Z.eqb_spec (y mod 8) 0) as [L0|L0]; [rewrite L0; reflexivity|].
    rewrite ab_assoc, (ab_is _ _ _ _ _ _ _ _ S (low_is y 1 "001" Y ltac:(cbn; auto))), ab_assoc.
    destruct (Z.eqb_spec (y mod 8) 1) as [L1|L1]; [rewrite L1; reflexivity|].
    rewrite (ab_is _ _ _ _ _ _ _ _ S (low_is y 2 "010" Y ltac:(cbn; auto))).
    destruct (Z.eqb_spec (y mod 8) 2) as [L2|L2]; [rewrite L2; reflexivity|].
    rewrite ab_assoc, (ab_is _ _ _ _ _ _ _ _ S (low_is y 3 "011" Y ltac:(cbn; auto))).
    destruct (Z.eqb_spec (y mod 8) 3) as [L3|L3]; [rewrite L3; reflexivity|].
    rewrite ab_assoc, (ab_is _ _ _ _ _ _ _ _ S (low_is y 4 "100" Y ltac:(cbn; auto 6))).
    destruct (Z.eqb_spec (y mod 8) 4) as [L4|L4]; [rewrite L4; reflexivity|].
    replace (y mod 8 <? 5) with false by lia. rewrite ab_ret. exact T.
  - rewrite ab_ret, T. destruct (y / 8) as [|[p|[p|p|]|]|p] eqn:Q; try reflexivity; lia.
Qed.
(*@ex
Example C99_alone_mrs_ex : map (fun '(d, y) => snd (aexecute Py3 (an_insn MoveFromSpecial [D d; Sys y] true))) [(0, 0); (16, 20); (16, 6); (16, 21)] =
  [Err TypeError; Err TypeError; Err KeyError; Err KeyError].
Proof. vm_compute. reflexivity. Qed.
@*)

(*@doc C99, byte reversal: with a width other than 2 and 4 nothing is reversed and the destination
    decides. @*)
Lemma C99_alone_reverse_proof : forall py i d m w sgn, gpr m -> is_insn i ByteReverse [D d; M m; Wid w; Sgn sgn] ->
  aexecute py i = (i, Err (if negb ((w =? 2) || (w =? 4)) && (15 <? d) then KeyError else TypeError)).
Proof.
  intros py i d m w sgn Gm [K A]. unfold aexecute. rewrite K. cbn [aeval]. unfold aeval_ByteReverse. repeat stepA A.
  destruct (w =? 4); [rewrite orb_true_r; reflexivity|]. rewrite orb_false_r. destruct (w =? 2); [repeat stepA A; reflexivity|].
  repeat stepA A. unfold abind at 1, arset, alift, g_ri_set. change (0 + d) with d. destruct (15 <? d); reflexivity.
Qed.
(*@ex
Example C99_alone_reverse_ex : map (fun '(d, w) => snd (aexecute Py3 (an_insn ByteReverse [D d; M 1; Wid w; Sgn false] true))) [(16, 2); (16, 4); (16, 8); (0, 8)] =
  [Err TypeError; Err TypeError; Err KeyError; Err TypeError].
Proof. vm_compute. reflexivity. Qed.
@*)
