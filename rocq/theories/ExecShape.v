(** * The shapes of decoded instructions, and the outcome of executing any of them *)
From Coq Require Import Lia ZifyBool.
From Verif Require Import BitstringModel SpecBits BitFacts BitOps BitMisc BitText BitThms HelpersModel SpecArm HelpFacts HelpThms UtilFacts CpuModel SpecCpu
  CpuFacts CpuThms InsnModel ExecModel SpecExec ExecFacts ExecDataThms ExecArithThms ExecMiscThms ExecMemThms ExecMultiThms SpecIsa SpecWhole.
Local Open Scope bool_scope.
Local Open Scope Z_scope.

(** ** No register disappears *)
Definition dom (c c' : cpu) : Prop := forall k, reg_get (c_regs c) (Some k) <> None -> reg_get (c_regs c') (Some k) <> None.
Lemma dom_refl : forall c, dom c c. Proof. intros c k H. exact H. Qed.
Lemma dom_trans : forall a b c, dom a b -> dom b c -> dom a c. Proof. intros a b c H1 H2 k H. apply H2, H1, H. Qed.
Lemma dom_write : forall c r v, dom c (mock_write_register c r v).
Proof.
  intros c [r|] v k H; [|rewrite mock_write_none; assumption]. rewrite mock_write_get. destruct (written r k); [discriminate|assumption].
Qed.
Lemma dom_regs : forall c c', c_regs c' = c_regs c -> dom c c'. Proof. intros c c' E k H. rewrite E. exact H. Qed.
Definition keeps {A} (m : comp A) : Prop := forall s, dom (s_cpu s) (s_cpu (fst (m s))).
Lemma keeps_bind : forall A B (m : comp A) (f : A -> comp B), keeps m -> (forall a, keeps (f a)) -> keeps (mbind m f).
Proof.
  intros A B m f H1 H2 s. specialize (H1 s). unfold mbind. destruct (m s) as [s' [a|e]]; cbn [fst] in *; [|assumption].
  apply (dom_trans _ _ _ H1), H2.
Qed.
Lemma keeps_same : forall A (m : comp A), (forall s, fst (m s) = s) -> keeps m.
Proof. intros A m H s. rewrite H. apply dom_refl. Qed.
Lemma keeps_setc : forall f, (forall c c', f c = Ok c' -> dom c c') -> keeps (setc f).
Proof.
  intros f H s. unfold setc. destruct (f (s_cpu s)) as [c|e] eqn:E; cbn [fst s_cpu]; [apply H; assumption|apply dom_refl].
Qed.
Lemma keeps_setattr : forall f, keeps (setattr f). Proof. intros f s. apply dom_refl. Qed.
Lemma keeps_rset : forall k v, keeps (rset k v).
Proof.
  intros k v. apply keeps_setc. intros c c' E. unfold r_set, ri_set in E.
  repeat match type of E with context [if ?b then _ else _] => destruct b | context [match ?o with _ => _ end] => destruct o end;
  try discriminate E; injection E as <-; apply dom_write.
Qed.
Lemma keeps_fset : forall f v, keeps (fset f v).
Proof.
  intros f v. apply keeps_setc. intros c c' E. unfold apsr_set in E.
  destruct (get_xpsr c) as [x|]; [|discriminate]. cbn [bind] in E. destruct (bs_init _ _) as [b|]; [|discriminate]. cbn [bind] in E.
  destruct (bs_setitem _ _ _) as [y|]; [|discriminate]. cbn [bind] in E. injection E as <-. apply dom_write.
Qed.
Lemma dom_write_memory : forall c a v size c', write_memory c a v size = Ok c' -> dom c c'.
Proof. intros c a v size c' E. apply dom_regs. exact (proj1 (proj2 (C35_separate_proof c (RIndex 0) v a v size)) _ E). Qed.

Ltac keeps_step :=
  match goal with
  | |- keeps (mbind _ _) => apply keeps_bind; [|intros ?]
  | |- keeps (rset _ _) => apply keeps_rset
  | |- keeps (fset _ _) => apply keeps_fset
  | |- keeps (setattr _) => apply keeps_setattr
  | |- keeps (if ?b then _ else _) => destruct b
  | |- keeps (match ?x with _ => _ end) => destruct x
  | |- keeps (setc _) => apply keeps_setc; let E := fresh "E" in intros ? ? E; first [injection E as <-; apply dom_write | exact (dom_write_memory _ _ _ _ _ E)]
  | |- keeps _ => apply keeps_same; intros ?; reflexivity
  end.
Ltac keeps_auto := repeat keeps_step.

Lemma keeps_next : keeps pc_next.
Proof. unfold pc_next, pc_add. keeps_auto. Qed.
Lemma keeps_flags : forall r c v, keeps (set_flags r c v).
Proof. intros. unfold set_flags. keeps_auto. Qed.
Lemma keeps_imm_or_m : keeps imm_or_m.
Proof. unfold imm_or_m. keeps_auto. Qed.
Lemma keeps_put_imm : forall b v, keeps (put_imm b v).
Proof. intros. unfold put_imm. keeps_auto. Qed.
Lemma keeps_add_shared : forall x s y c, keeps (add_shared x s y c).
Proof. intros. unfold add_shared. keeps_auto; apply keeps_put_imm. Qed.
Lemma keeps_address : keeps address_of.
Proof. unfold address_of. keeps_auto. Qed.
Lemma keeps_listed : forall py k, keeps (listed py k).
Proof. intros. unfold listed. keeps_auto. Qed.
Lemma keeps_list_bytes : keeps list_bytes.
Proof. unfold list_bytes. keeps_auto. Qed.
Lemma keeps_store_loop : forall py l a, keeps (store_loop py l a).
Proof.
  intros py. induction l as [|k l IH]; intros a; cbn [store_loop]; [keeps_auto|]. apply keeps_bind; [apply keeps_listed|intros b].
  destruct b; [|apply IH]. unfold write32. keeps_step; [keeps_auto|]. keeps_step; [keeps_auto|]. keeps_step; [keeps_auto|]. apply IH.
Qed.
Lemma keeps_load_loop : forall py l a, keeps (load_loop py l a).
Proof.
  intros py. induction l as [|k l IH]; intros a; cbn [load_loop]; [keeps_auto|]. apply keeps_bind; [apply keeps_listed|intros b].
  destruct b; [|apply IH]. keeps_step; [keeps_auto|]. keeps_step; [keeps_auto|]. keeps_step; [keeps_auto|]. apply IH.
Qed.
Lemma keeps_load_pc : forall py a, keeps (load_pc py a).
Proof. intros. unfold load_pc. apply keeps_bind; [apply keeps_listed|intros b]. destruct b; [keeps_auto|apply keeps_next]. Qed.
Lemma keeps_wreg : forall n v, keeps (wreg n v).
Proof. intros. unfold wreg. keeps_auto. Qed.
Lemma keeps_rreg : forall n, keeps (rreg n).
Proof. intros. unfold rreg. keeps_auto. Qed.
Lemma keeps_is : forall a b t, keeps (sysm_is a b t).
Proof. intros. unfold sysm_is. keeps_auto. Qed.
Lemma keeps_bit : forall a t, keeps (sysm_bit a t).
Proof. intros. unfold sysm_bit. keeps_auto. Qed.
Lemma keeps_slice : forall r a b v, keeps (set_slice r a b v).
Proof. intros. unfold set_slice. keeps_auto. Qed.
Ltac keeps_all := repeat first [apply keeps_next | apply keeps_flags | apply keeps_imm_or_m | apply keeps_put_imm | apply keeps_add_shared
  | apply keeps_address | apply keeps_listed | apply keeps_list_bytes | apply keeps_store_loop | apply keeps_load_loop | apply keeps_load_pc
  | apply keeps_wreg | apply keeps_rreg | apply keeps_is | apply keeps_bit | apply keeps_slice | keeps_step].
Lemma keeps_mrs_bit : forall r n, keeps (mrs_bit r n).
Proof. intros. unfold mrs_bit. keeps_all. Qed.
Lemma keeps_mrs_mask : forall r, keeps (mrs_mask r).
Proof. intros. unfold mrs_mask. repeat first [apply keeps_mrs_bit | progress keeps_all]. Qed.
Lemma keeps_eval : forall py k, keeps (eval py k).
Proof.
  intros py k. destruct k; cbn [eval]; unfold eval_Instruction, eval_AddSub, eval_BitOp, eval_BitClear, eval_ShiftOp, eval_ReverseSubtract,
    eval_Multiply, eval_AddressToRegister, eval_Extend, eval_ByteReverse, eval_Move, eval_ShiftedMoveNegate, eval_Compare, eval_Test,
    eval_Branch, eval_Load, eval_Store, eval_LoadLiteral, eval_Push, eval_Pop, eval_LoadMultiple, eval_StoreMultiple,
    eval_ChangeProcessorState, eval_MoveFromSpecial, eval_MoveToSpecial, mrs_xpsr, mrs_sp;
  repeat first [apply keeps_mrs_mask | progress keeps_all].
Qed.

(** ** The contents of the registers *)
Definition okf (f : Z -> Z) : Prop :=
  (forall k, core k -> word (f k)) /\ f 13 mod 4 = 0 /\ f 17 = f 13 /\ f 18 mod 4 = 0.
Lemma okf_set : forall f k v, okf f -> word v -> okf (set f k v).
Proof.
  intros f k v (W & A & B & C) V. unfold okf, set. split; [|split; [|split]].
  - intros j J. destruct (written k j); [apply kept_range; exact V|apply W; exact J].
  - destruct (written k 13) eqn:E; [|exact A]. apply CpuFacts.kept_aligned. unfold written in E. lia.
  - unfold written. change (17 =? 13) with false. change (13 =? 13) with true. change (17 =? 17) with true.
    change (13 =? 17) with false. rewrite !andb_true_r, !andb_false_r, !orb_false_r.
    rewrite (Z.eqb_sym k 13), (Z.eqb_sym k 17). destruct (17 =? k) eqn:E1; [cbn [orb]; rewrite orb_true_r; reflexivity|].
    cbn [orb]. destruct (13 =? k); [reflexivity|exact B].
  - destruct (written k 18) eqn:E; [|exact C]. apply CpuFacts.kept_aligned. unfold written in E. lia.
Qed.
Lemma okf_reg : forall c, cpu_ok c -> okf (reg c).
Proof.
  intros c (R & (A & B & C) & _). split; [|split; [exact A|split; [exact B|exact C]]]. intros k K. apply word_reg; assumption.
Qed.
Lemma opt_bit_word : forall x k b, 0 <= k < 32 -> word x -> word (opt_bit x k b).
Proof. intros x k [b|] K X; [apply put_bit_range; assumption|exact X]. Qed.
Lemma okf_nzcv : forall f n z c v, okf f -> okf (set_nzcv f n z c v).
Proof.
  intros f n z c v F. apply okf_set; [exact F|]. unfold put_flags. repeat apply opt_bit_word; try lia. apply (proj1 F). unfold core. lia.
Qed.
Lemma okf_result : forall sf f r c v, okf f -> okf (set_result sf f r c v).
Proof. intros. unfold set_result. destruct (sets sf); [apply okf_nzcv|]; assumption. Qed.
Lemma okf_advance : forall f n, okf f -> okf (advance f n).
Proof. intros. apply okf_set; [assumption|apply word_wrap]. Qed.
Lemma okf_loaded : forall l vs f, okf f -> Forall word vs -> okf (loaded f l vs).
Proof.
  induction l as [|k l IH]; intros [|v vs] f F V; cbn [loaded]; try exact F. inversion V; subst. apply IH; [apply okf_set|]; assumption.
Qed.
Lemma reads_word : forall c a size v, mem_ok c -> size_ok size -> word a -> reads c a size v -> word v.
Proof.
  intros c a size v M S A R. destruct (reads_ok c a size v M S A R) as [_ B]. unfold word.
  destruct S as [-> |[-> | ->]]; change (2 ^ 8) with 256 in *; change (2 ^ 16) with 65536 in *; change (2 ^ 32) with 4294967296 in *; lia.
Qed.
Lemma words_word : forall c vs a, mem_ok c -> reads_words c a vs -> Forall word vs.
Proof.
  intros c vs. induction vs as [|v vs IH]; intros a M R; [constructor|]. destruct R as [R R']. constructor; [|apply (IH (a + 4)); assumption].
  apply (reads_word c (wrap a) 32); [assumption|right; right; reflexivity|apply word_wrap|assumption].
Qed.
Lemma words_or_cut : forall c n a, exists vs, reads_words c a vs /\
  (List.length vs = n \/ (List.length vs < n)%nat /\ cut_off c (wrap (a + words vs)) 32).
Proof.
  intros c n. induction n as [|n IH]; intros a; [exists []; split; [exact Logic.I|left; reflexivity]|].
  destruct (reads_or_cut c (wrap a) 32) as [[v R]|X].
  - destruct (IH (a + 4)) as (vs & R' & D). exists (v :: vs). split; [split; assumption|].
    destruct D as [L|[L X]]; [left; cbn; lia|right]. split; [cbn; lia|]. rewrite words_cons. replace (a + (4 + words vs)) with (a + 4 + words vs) by lia. exact X.
  - exists []. split; [exact Logic.I|]. right. split; [cbn; lia|]. unfold words. cbn. rewrite Z.add_0_r. exact X.
Qed.
Lemma set15 : forall f k v, k <> 15 -> set f k v 15 = f 15.
Proof. intros f k v K. unfold set, written. replace (15 =? k) with false by lia. cbn. rewrite !andb_false_r. reflexivity. Qed.
Lemma adv15 : forall f n, advance f n 15 = wrap (f 15 + n).
Proof. reflexivity. Qed.
Lemma nzcv15 : forall f n z c v, set_nzcv f n z c v 15 = f 15.
Proof. reflexivity. Qed.
Lemma result15 : forall sf f r c v, set_result sf f r c v 15 = f 15.
Proof. intros. unfold set_result. destruct (sets sf); reflexivity. Qed.
Lemma loaded15 : forall l vs f, Forall (fun k => k <> 15) l -> loaded f l vs 15 = f 15.
Proof.
  induction l as [|k l IH]; intros [|v vs] f F; cbn [loaded]; try reflexivity. inversion F; subst. rewrite IH by assumption. apply set15. assumption.
Qed.
Lemma transferred_not15 : forall py v, Forall (fun k => k <> 15) (transferred py v).
Proof.
  intros. unfold transferred. apply Forall_forall. intros k I. apply filter_In in I. destruct I as [I _].
  change (py_range 15) with [0; 1; 2; 3; 4; 5; 6; 7; 8; 9; 10; 11; 12; 13; 14] in I. cbn in I. lia.
Qed.

(** ** Shapes *)
Definition shift_ok (ty : srtype) (amount : Z) : Prop := 0 <= amount /\ (ty = SR_RRX -> amount = 1).
Inductive shape : klass -> list item -> Prop :=
| sh_plain : shape Instruction []
| sh_number : forall v, word v -> shape Instruction [Imm v]
| sh_cps : forall en pri flt, shape ChangeProcessorState [En en; Pri pri; Flt flt]
| sh_add_reg : forall d n m sf uc sub, gpr d -> gpr n -> gpr m -> shape AddSub [D d; N n; M m; Flags sf; Carry uc; Sub sub]
| sh_add_imm : forall d n v sf uc sub, gpr d -> gpr n -> 0 <= v < 2 ^ 31 -> shape AddSub [D d; N n; Flags sf; Imm v; Carry uc; Sub sub]
| sh_branch_reg : forall m link k delta, gpr m -> 0 <= k <= 15 -> shape Branch [M m; Link link; Cond k; Delta delta]
| sh_branch_imm : forall v link k delta, word v -> 0 <= k <= 15 -> shape Branch [Link link; Cond k; Delta delta; Imm v]
| sh_bic : forall d n m sf, gpr d -> gpr n -> gpr m -> shape BitClear [D d; N n; M m; Flags sf]
| sh_bitop : forall d n m op sf, gpr d -> gpr n -> gpr m -> shape BitOp [D d; N n; M m; Flags sf; Op op]
| sh_shift_imm : forall d n ty amount sf, gpr d -> gpr n -> shift_ok ty amount -> shape ShiftOp [D d; N n; Flags sf; ShN amount; Ty ty]
| sh_shift_reg : forall d n m ty sf, gpr d -> gpr n -> gpr m -> ty <> SR_RRX -> shape ShiftOp [D d; N n; M m; Flags sf; Ty ty]
| sh_rsb : forall d n v sf, gpr d -> gpr n -> word v -> shape ReverseSubtract [D d; N n; Flags sf; Imm v]
| sh_mul : forall d n m sf, gpr d -> gpr n -> gpr m -> shape Multiply [D d; N n; M m; Flags sf]
| sh_extend : forall d m sf rot w sgn, gpr d -> gpr m -> 0 <= rot -> w = 8 \/ w = 16 ->
    shape Extend [D d; M m; Rot rot; Flags sf; Wid w; Sgn sgn]
| sh_reverse : forall d m w sgn, gpr d -> gpr m -> w = 4 \/ w = 2 -> shape ByteReverse [D d; M m; Wid w; Sgn sgn]
| sh_move_reg : forall d m sf neg, gpr d -> gpr m -> shape Move [D d; M m; Flags sf; Neg neg]
| sh_move_imm : forall d v sf, gpr d -> word v -> shape Move [D d; Flags sf; Imm v; Neg false]
| sh_mvn : forall d m sf ty amount, gpr d -> gpr m -> shift_ok ty amount -> shape ShiftedMoveNegate [D d; M m; Flags sf; ShT ty; ShN amount]
| sh_compare_reg : forall n m neg, gpr n -> gpr m -> shape Compare [N n; M m; Neg neg]
| sh_compare_imm : forall n v neg, gpr n -> word v -> shape Compare [N n; Imm v; Neg neg]
| sh_test : forall n m ty amount, gpr n -> gpr m -> shift_ok ty amount -> shape Test [N n; M m; ShT ty; ShN amount]
| sh_load_imm : forall t n v add ms sgn, gpr t -> gpr n -> word v -> size_ok ms ->
    shape Load [T t; N n; Idx true; Add add; Wb false; Imm v; Mem ms; Sgn sgn]
| sh_load_reg : forall t n m ty amount add ms sgn, gpr t -> gpr n -> gpr m -> shift_ok ty amount -> size_ok ms ->
    shape Load [T t; N n; M m; Idx true; Add add; Wb false; ShT ty; ShN amount; Mem ms; Sgn sgn]
| sh_store_imm : forall t n v add ms sgn, gpr t -> gpr n -> word v -> size_ok ms ->
    shape Store [T t; N n; Idx true; Add add; Wb false; Imm v; Mem ms; Sgn sgn]
| sh_store_reg : forall t n m ty amount add ms sgn, gpr t -> gpr n -> gpr m -> shift_ok ty amount -> size_ok ms ->
    shape Store [T t; N n; M m; Idx true; Add add; Wb false; ShT ty; ShN amount; Mem ms; Sgn sgn]
| sh_literal : forall t v add ms sgn, gpr t -> word v -> size_ok ms -> shape LoadLiteral [T t; Add add; Imm v; Mem ms; Sgn sgn]
| sh_adr : forall d v add, gpr d -> word v -> shape AddressToRegister [D d; Add add; Imm v]
| sh_push : forall v, half v -> shape Push [Regs v]
| sh_pop : forall v, half v -> shape Pop [Regs v]
| sh_ldm : forall n v wb, gpr n -> half v -> shape LoadMultiple [N n; Regs v; Wb wb]
| sh_stm : forall n v wb, gpr n -> half v -> shape StoreMultiple [N n; Regs v; Wb wb]
| sh_mrs : forall d y, gpr d -> special y = true -> shape MoveFromSpecial [D d; Sys y]
| sh_msr : forall n y, gpr n -> special y = true -> shape MoveToSpecial [N n; Sys y].
Definition shaped (i : insn) : Prop := exists l, shape (i_klass i) l /\ i_attrs i = attributes l.

(** ** The outcome of any instruction *)
Definition effect (py : pyver) (c : cpu) (i : insn) (f : Z -> Z) (i' : insn) (r : res unit) : Prop :=
  exists c', execute py c i = (mkst c' i', r) /\ (exists ws, wrote c c' ws) /\ forall k, core k -> reg c' k = f k.
Lemma runs_effect : forall py c i f i', runs py c i f i' -> effect py c i f i' (Ok tt).
Proof. intros py c i f i' (c' & E & M & R). exists c'. split; [exact E|]. split; [exists []; apply wrote_nil; exact M|exact R]. Qed.
Lemma fails_effect : forall py c i f e, fails py c i f e -> effect py c i f i (Err e).
Proof. intros py c i f e (c' & E & M & R). exists c'. split; [exact E|]. split; [exists []; apply wrote_nil; exact M|exact R]. Qed.
Lemma stores_effect : forall py c i f ws, stores py c i f ws -> effect py c i f i (Ok tt).
Proof. intros py c i f ws (c' & E & M & R). exists c'. split; [exact E|]. split; [exists ws; exact M|exact R]. Qed.
Lemma none_effect : forall py c i e, execute py c i = (mkst c i, Err e) -> effect py c i (reg c) i (Err e).
Proof. intros py c i e E. exists c. split; [exact E|]. split; [exists []; apply wrote_nil; reflexivity|reflexivity]. Qed.

Definition pc_after (c : cpu) (i : insn) (r : res unit) : Z :=
  match r with Ok _ => wrap (reg c 15 + i_size i) | Err _ => reg c 15 end.
(** What we need of the object afterwards. *)
Definition object_ok (py : pyver) (i i' : insn) : Prop :=
  shaped i' /\ i_size i' = i_size i /\ names_pc py i' = names_pc py i /\
  (stable i -> stable i' /\ forall c, regs_ok c -> execute py c i' = execute py c i).
Definition outcome_ok (py : pyver) (c : cpu) (i : insn) : Prop := exists f i' r,
  effect py c i f i' r /\ okf f /\ (names_pc py i = false -> f 15 = pc_after c i r) /\ object_ok py i i'.
Lemma object_same : forall py i, shaped i -> object_ok py i i.
Proof. intros py i S. split; [exact S|]. split; [reflexivity|]. split; [reflexivity|]. intros X. split; [exact X|reflexivity]. Qed.

Lemma flip_small : forall v, v < 2 ^ 31 -> flip v = v.
Proof. intros v H. unfold flip. rewrite (proj2 (Z.ltb_lt _ _) H). reflexivity. Qed.
(** An object whose immediate was inverted when negative. *)
Lemma object_imm : forall py i l l' v, word v -> a_imm32 (attributes l) = Some (bits 32 v) -> i_attrs i = attributes l -> i_klass i = Compare \/ i_klass i = ReverseSubtract ->
  with_imm32 (bits 32 (flip v)) (attributes l) = attributes l' -> shape (i_klass i) l' -> object_ok py i (with_imm i (flip v)).
Proof.
  intros py i l l' v V X A KK A' S. split; [|split; [|split]].
  - exists l'. split; [exact S|]. rewrite (attrs_with_imm i l _ A). exact A'.
  - reflexivity.
  - reflexivity.
  - intros I. specialize (I KK (bits 32 v)). rewrite A in I. specialize (I X). rewrite bv_word in I by assumption.
    rewrite (flip_small v I). rewrite (with_imm_same i l (i_klass i) v (conj eq_refl A) X).
    split; [|reflexivity]. intros _ b B. rewrite A, X in B. injection B as <-. rewrite bv_word; assumption.
Qed.

(** Moving a word on. *)
Lemma outcome_runs : forall py c i f i', runs py c i f i' -> okf f ->
  (names_pc py i = false -> f 15 = wrap (reg c 15 + i_size i)) -> object_ok py i i' -> outcome_ok py c i.
Proof. intros py c i f i' E F P O. exists f, i', (Ok tt). split; [apply runs_effect; exact E|]. split; [exact F|]. split; assumption. Qed.
Lemma outcome_stores : forall py c i f ws, stores py c i f ws -> okf f -> shaped i ->
  (names_pc py i = false -> f 15 = wrap (reg c 15 + i_size i)) -> outcome_ok py c i.
Proof. intros py c i f ws E F S P. exists f, i, (Ok tt). split; [apply (stores_effect _ _ _ _ ws); exact E|]. split; [exact F|]. split; [exact P|apply object_same; exact S]. Qed.
Lemma outcome_none : forall py c i e, execute py c i = (mkst c i, Err e) -> cpu_ok c -> shaped i -> outcome_ok py c i.
Proof.
  intros py c i e E C S. exists (reg c), i, (Err e). split; [apply none_effect; exact E|]. split; [apply okf_reg; exact C|].
  split; [reflexivity|apply object_same; exact S].
Qed.
Lemma outcome_fails : forall py c i f e, fails py c i f e -> okf f -> shaped i -> (names_pc py i = false -> f 15 = reg c 15) -> outcome_ok py c i.
Proof. intros py c i f e E F S P. exists f, i, (Err e). split; [apply fails_effect; exact E|]. split; [exact F|]. split; [exact P|apply object_same; exact S]. Qed.

(** Outcome of a multiple load. *)
Lemma outcome_list : forall py c i v a f g, cpu_ok c -> shaped i -> okf f -> (forall h, okf h -> okf (g h)) ->
  (is_listed py v 15 = true -> names_pc py i = true) -> f 15 = reg c 15 -> (names_pc py i = false -> forall h, g h 15 = h 15) ->
  loads_list py c i v a f g -> outcome_ok py c i.
Proof.
  intros py c i v a f g C S F G L P Q H. set (l := transferred py v) in *.
  destruct (words_or_cut c (List.length l) a) as (vs & R & D). specialize (H vs R). destruct H as [H1 H2]. fold l in H1, H2.
  pose proof (words_word c vs a (proj2 (proj2 C)) R) as W.
  pose proof (okf_loaded l vs f F W) as F'.
  assert (P' : loaded f l vs 15 = reg c 15) by (rewrite loaded15 by apply transferred_not15; exact P).
  destruct D as [D|[D X]]; [|apply (outcome_fails _ _ _ _ _ (H2 D X) F' S); intros _; exact P'].
  destruct (H1 D) as [H3 H4]. unfold loaded_pc in H3. destruct (is_listed py v 15) eqn:E.
  - destruct (reads_or_cut c (wrap (a + words l)) 32) as [[u U]|X].
    + refine (outcome_runs _ _ _ _ _ (H3 _ (ex_intro _ u (conj U eq_refl))) _ _ (object_same _ _ S)).
      * apply G, okf_set; [exact F'|]. apply (reads_word c _ 32 u (proj2 (proj2 C))) in U; [exact U|right; right; reflexivity|apply word_wrap].
      * intros N0. rewrite (L eq_refl) in N0. discriminate.
    + apply (outcome_fails _ _ _ _ _ (H4 eq_refl X) F' S). intros _; exact P'.
  - refine (outcome_runs _ _ _ _ _ (H3 _ eq_refl) _ _ (object_same _ _ S)).
    + apply G, okf_advance. exact F'.
    + intros N0. rewrite (Q N0), adv15, P'. reflexivity.
Qed.

Lemma loads_outcome : forall py c i t n add ms sgn off, cpu_ok c -> shaped i -> gpr n -> size_ok ms ->
  (names_pc py i = (t =? 15)) -> loads py c i t n true add false ms sgn off -> outcome_ok py c i.
Proof.
  intros py c i t n add ms sgn off C S Hn Hs P H. unfold loads, addresses in H. destruct H as (H1 & H2 & H3).
  destruct H3 as [[v R]|X]; [|apply (outcome_none _ _ _ _ (H2 X)); assumption].
  refine (outcome_runs _ _ _ _ _ (H1 v R) _ _ (object_same _ _ S)).
  - apply okf_advance, okf_set; [apply okf_reg; exact C|]. apply extended_word; [exact Hs|].
    apply (proj2 (reads_ok c _ ms v (proj2 (proj2 C)) Hs (offset_word _ _ _) R)).
  - intros N0. rewrite adv15, set15; [reflexivity|]. rewrite P in N0. lia.
Qed.

Lemma base_attrs : forall py i l, i_attrs i = attributes l -> names_pc py i = names_pc py (mkinsn "" 0 false 0 (i_klass i) [] (attributes l)).
Proof. intros py i l A. unfold names_pc. rewrite A. reflexivity. Qed.

Ltac know K A P := let P' := fresh P in
  match type of A with _ = attributes ?l => match goal with py : pyver, i : insn |- _ =>
    pose proof (base_attrs py i l A) as P; rewrite <- K in P; unfold names_pc in P at 2; cbn [i_klass i_attrs attributes pick a_d a_n a_t a_wback a_registers is_pc wants lists_pc] in P end end.
Ltac plain_pc P := let N0 := fresh in intros N0; rewrite ?P in N0; rewrite ?adv15, ?result15, ?nzcv15; rewrite ?set15 by lia; reflexivity.
Ltac okf_tac C := repeat first [apply okf_advance | apply okf_result | apply okf_nzcv | apply okf_set]; try (apply okf_reg; exact C).

Lemma special_read_word : forall c y r, regs_ok c -> special_read (reg c) y = Some r -> word r.
Proof.
  intros c y r R E. assert (Z0 : word 0) by (split; lia). unfold special_read in E.
  repeat match type of E with match ?x with _ => _ end = _ => destruct x; try discriminate E end;
  injection E as <-; try (destruct (privileged (reg c)); [|exact Z0]);
  first [exact Z0 | apply word_reg; [assumption|unfold core; lia] | apply (mod_word _ 6); lia | apply (mod_word _ 1); lia | apply (mod_word _ 8); lia | apply (mod_word _ 2); lia].
Qed.

Lemma outcome_shape : forall py c i, cpu_ok c -> shaped i -> outcome_ok py c i.
Proof.
  intros py c i C S. pose proof S as (l & SH & A). pose proof C as (R & _ & ME).
  assert (WR : forall k, gpr k -> word (reg c k)) by (intros; apply word_gpr; assumption).
  remember (i_klass i) as k eqn:K.
  destruct SH as [ | v V | en pri flt | d n m sf uc sub GD GN GM | d n v sf uc sub GD GN V | m link k delta GM CK | v link k delta V CK
    | d n m sf GD GN GM | d n m op sf GD GN GM | d n ty amount sf GD GN SO | d n m ty sf GD GN GM TY | d n v sf GD GN V | d n m sf GD GN GM
    | d m sf rot w sgn GD GM RO WI | d m w sgn GD GM WI | d m sf neg GD GM | d v sf GD V | d m sf ty amount GD GM SO
    | n m neg GN GM | n v neg GN V | n m ty amount GN GM SO | t n v add ms sgn GT GN V SZ | t n m ty amount add ms sgn GT GN GM SO SZ
    | t n v add ms sgn GT GN V SZ | t n m ty amount add ms sgn GT GN GM SO SZ | t v add ms sgn GT V SZ | d v add GD V
    | v V | v V | n v wb GN V | n v wb GN V | d y GD Y | n y GN Y ];
  know K A P; symmetry in K.
  - refine (outcome_runs _ _ _ _ _ (C54_hint_proof py c i _ R (or_introl eq_refl) K) _ _ (object_same _ _ S)); [okf_tac C|plain_pc P].
  - refine (outcome_runs _ _ _ _ _ (C54_hint_proof py c i _ R (or_introl eq_refl) K) _ _ (object_same _ _ S)); [okf_tac C|plain_pc P].
  - refine (outcome_runs _ _ _ _ _ (C54_cps_proof py c i en pri flt R (conj K A)) _ _ (object_same _ _ S)).
    + assert (word (if en then 0 else 1)) by (destruct en; split; lia). destruct pri, flt; okf_tac C; assumption.
    + destruct pri, flt; plain_pc P.
  - refine (outcome_runs _ _ _ _ _ (C42_register_partial_proof py c i d n m sf uc sub R GD GN GM (conj K A)) _ _ (object_same _ _ S)); [okf_tac C|plain_pc P].
    apply flip_word, word_wrap.
  - assert (V' : word v) by (split; [lia|]; change (2 ^ 31) with 2147483648 in V; change (2 ^ 32) with 4294967296; lia).
    pose proof (C42_immediate_partial_proof py c i d n v sf uc sub R GD GN V' (conj K A)) as H. cbv zeta in H.
    rewrite (flip_small v) in H by lia. rewrite (with_imm_same i _ AddSub v (conj K A) eq_refl) in H.
    refine (outcome_runs _ _ _ _ _ H _ _ (object_same _ _ S)); [okf_tac C|plain_pc P].
    apply flip_word, word_wrap.
  - refine (outcome_runs _ _ _ _ _ (C47_register_proof py c i m link k delta R GM CK (conj K A)) _ _ (object_same _ _ S)).
    + assert (okf (linked link (reg c) delta)).
      { unfold linked. destruct link; okf_tac C. apply word_lor; [apply word_wrap|split; lia]. }
      destruct (holds_in k (reg c 16)); okf_tac C; [assumption|]. destruct H as [H _]. specialize (H m (core_gpr m GM)).
      pose proof (Z.mod_pos_bound (linked link (reg c) delta m) 2 ltac:(lia)). pose proof (Z.mod_le (linked link (reg c) delta m) 2 ltac:(destruct H; lia) ltac:(lia)).
      unfold word in *. lia.
    + intros N0. rewrite P in N0. discriminate.
  - refine (outcome_runs _ _ _ _ _ (C47_immediate_proof py c i v link k delta R V CK (conj K A)) _ _ (object_same _ _ S)).
    + destruct (holds_in k (reg c 16)); okf_tac C; [|apply word_wrap]. 
      unfold linked. destruct link; okf_tac C. apply word_lor; [apply word_wrap|split; lia].
    + intros N0. rewrite P in N0. discriminate.
  - refine (outcome_runs _ _ _ _ _ (C43_bic_proof py c i d n m sf R GD GN GM (conj K A)) _ _ (object_same _ _ S)); [okf_tac C|plain_pc P].
    apply word_land; [apply WR; assumption|apply word_not, WR; assumption].
  - refine (outcome_runs _ _ _ _ _ (C43_bitop_proof py c i d n m op sf R GD GN GM (conj K A)) _ _ (object_same _ _ S)); [okf_tac C|plain_pc P].
    apply bit_result_word; apply WR; assumption.
  - pose proof (C44_shift_imm_proof py c i d n ty amount sf R GD GN (proj1 SO) (proj2 SO) (conj K A)) as H.
    pose proof (shift_result_word ty (reg c n) amount (flag_C (reg c 16)) (WR n GN) (proj1 SO) (proj2 SO)) as W.
    destruct (shift_result ty 32 (reg c n) amount (flag_C (reg c 16))) as [r cf]. cbn [fst] in W.
    refine (outcome_runs _ _ _ _ _ H _ _ (object_same _ _ S)); [okf_tac C; exact W|plain_pc P].
  - pose proof (C44_shift_reg_proof py c i d n m ty sf R GD GN GM TY (conj K A)) as H.
    pose proof (shift_result_word ty (reg c n) (reg c m mod 256) (flag_C (reg c 16)) (WR n GN) (proj1 (Z.mod_pos_bound _ 256 ltac:(lia))) ltac:(intros X; elim TY; exact X)) as W.
    destruct (shift_result ty 32 (reg c n) (reg c m mod 256) (flag_C (reg c 16))) as [r cf]. cbn [fst] in W.
    refine (outcome_runs _ _ _ _ _ H _ _ (object_same _ _ S)); [okf_tac C; exact W|plain_pc P].
  - refine (outcome_runs _ _ _ _ _ (C42_reverse_partial_proof py c i d n v sf R GD GN V (conj K A)) _ _ _); [okf_tac C|plain_pc P|].
    + apply flip_word, word_wrap.
    + apply (object_imm _ _ _ [D d; N n; Flags sf; Imm (flip v)] _ V) with (2 := A); [reflexivity|rewrite K; tauto|reflexivity|].
      rewrite K. constructor; try assumption. apply flip_word; assumption.
  - refine (outcome_runs _ _ _ _ _ (C52_multiply_proof py c i d n m sf R GD GN GM (conj K A)) _ _ (object_same _ _ S)); [okf_tac C; apply word_wrap|plain_pc P].
  - refine (outcome_runs _ _ _ _ _ (C51_extend_proof py c i d m sf rot w sgn R GD GM RO WI (conj K A)) _ _ (object_same _ _ S)); [okf_tac C|plain_pc P].
    unfold extended. destruct sgn; [apply word_wrap|apply mod_word; lia].
  - refine (outcome_runs _ _ _ _ _ (C51_byte_reverse_proof py c i d m w sgn R GD GM WI (conj K A)) _ _ (object_same _ _ S)); [okf_tac C|plain_pc P].
    apply reversed_word.
  - pose proof (C45_register_proof py c i d m sf neg R GD GM (conj K A)) as H. cbv zeta in H.
    refine (outcome_runs _ _ _ _ _ H _ _ _); [okf_tac C|plain_pc P|].
    + destruct neg; [apply word_not|]; apply WR; assumption.
    + destruct (m =? 15) eqn:M15; [|apply object_same; exact S]. split; [|split; [|split]].
      * exists [D d; M m; Flags Never; Neg neg]. split; [cbn [with_flags set_attrs i_klass]; rewrite K; constructor; assumption|].
        unfold with_flags, set_attrs. cbn [i_attrs]. rewrite A. reflexivity.
      * reflexivity.
      * reflexivity.
      * intros I0. split; [intros KK b B; apply (I0 KK b B)|]. intros c2 R2. unfold execute. cbn [with_flags set_attrs i_klass]. rewrite K. cbn [eval].
        unfold eval_Move.
        rewrite (bind_hasattr _ _ a_m true) by (cbn [with_flags set_attrs i_attrs with_setflags a_m]; rewrite A; reflexivity).
        rewrite (bind_hasattr _ _ a_m true) by (rewrite A; reflexivity). cbv beta iota. rewrite !bind_assoc.
        rewrite (bind_attr _ _ a_m m) by (cbn [with_flags set_attrs i_attrs with_setflags a_m]; rewrite A; reflexivity).
        rewrite (bind_attr _ _ a_m m) by (rewrite A; reflexivity). rewrite !bind_assoc, !bind_rget by assumption. rewrite !bind_assoc, M15.
        rewrite !bind_setattr. reflexivity.
  - pose proof (C45_immediate_proof py c i d v sf false R GD V (conj K A)) as H. cbv zeta iota in H.
    rewrite (with_imm_same i _ Move v (conj K A) eq_refl) in H.
    refine (outcome_runs _ _ _ _ _ H _ _ (object_same _ _ S)); [okf_tac C; exact V|plain_pc P].
  - apply (outcome_none py c i NameError); [|assumption|assumption]. apply mvn_shifted_fails. exact K.
  - refine (outcome_runs _ _ _ _ _ (C46_compare_register_partial_proof py c i n m neg R GN GM (conj K A)) _ _ (object_same _ _ S)); [okf_tac C|plain_pc P].
  - refine (outcome_runs _ _ _ _ _ (C46_compare_immediate_partial_proof py c i n v neg R GN V (conj K A)) _ _ _); [okf_tac C|plain_pc P|].
    apply (object_imm _ _ _ [N n; Imm (flip v); Neg neg] _ V) with (2 := A); [reflexivity|rewrite K; tauto|reflexivity|].
    rewrite K. constructor; try assumption. apply flip_word; assumption.
  - pose proof (C46_test_proof py c i n m ty amount R GN GM (proj1 SO) (proj2 SO) (conj K A)) as H.
    destruct (shift_result ty 32 (reg c m) amount (flag_C (reg c 16))) as [r cf].
    refine (outcome_runs _ _ _ _ _ H _ _ (object_same _ _ S)); [okf_tac C|plain_pc P].
  - apply (loads_outcome _ _ _ t n add ms sgn v C S GN SZ); [rewrite P; cbn; rewrite orb_false_r; reflexivity|].
    apply C48_load_immediate_proof; try assumption. exact (conj K A).
  - apply (loads_outcome _ _ _ t n add ms sgn (fst (shift_result ty 32 (reg c m) amount (flag_C (reg c 16)))) C S GN SZ); [rewrite P; cbn; rewrite orb_false_r; reflexivity|].
    apply C48_load_register_proof; try assumption; [apply SO|apply SO|]. exact (conj K A).
  - refine (outcome_stores _ _ _ _ _ (C48_store_immediate_proof py c i t n v true add false ms sgn R ME GT GN V SZ (conj K A)) _ S _); [okf_tac C|plain_pc P].
  - refine (outcome_stores _ _ _ _ _ (C48_store_register_proof py c i t n m ty amount true add false ms sgn R ME GT GN GM (proj1 SO) (proj2 SO) SZ (conj K A)) _ S _); [okf_tac C|plain_pc P].
  - pose proof (C48_load_literal_proof py c i t v add ms sgn R ME GT V SZ (conj K A)) as H. cbv zeta in H. destruct H as (H1 & H2 & H3).
    destruct H3 as [[u U]|X]; [|apply (outcome_none _ _ _ _ (H2 X)); assumption].
    refine (outcome_runs _ _ _ _ _ (H1 u U) _ _ (object_same _ _ S)); [okf_tac C|plain_pc P].
    apply extended_word; [exact SZ|]. apply (proj2 (reads_ok c _ ms u ME SZ (offset_word _ _ _) U)).
  - refine (outcome_runs _ _ _ _ _ (C53_adr_proof py c i d v add R GD V (conj K A)) _ _ (object_same _ _ S)); [okf_tac C|plain_pc P].
    apply word_wrap.
  - refine (outcome_stores _ _ _ _ _ (C49_push_proof py c i v R ME V (conj K A)) _ S _); [okf_tac C; apply word_wrap|plain_pc P].
  - refine (outcome_list py c i v _ _ _ C S _ _ _ _ _ (C49_pop_proof py c i v R ME V (conj K A))).
    + okf_tac C. apply word_wrap.
    + intros h H. exact H.
    + intros L. rewrite P. unfold bits, is_listed in *. destruct py; [|reflexivity]. cbn [bv]. rewrite Z.mod_small by exact V. exact L.
    + reflexivity.
    + reflexivity.
  - refine (outcome_list py c i v _ _ _ C S _ _ _ _ _ (C50_load_multiple_proof py c i n v wb R ME GN V (conj K A))).
    + okf_tac C.
    + intros h H. unfold rebased. destruct (wb && negb (Z.testbit v n)); [okf_tac C; [exact H|apply word_wrap]|exact H].
    + intros L. rewrite P. unfold bits, is_listed in *. destruct py; [|reflexivity]. cbn [bv]. rewrite Z.mod_small by exact V. rewrite L. reflexivity.
    + reflexivity.
    + intros N0 h. rewrite P in N0. unfold rebased. destruct wb; [|reflexivity]. cbn [andb]. destruct (negb (Z.testbit v n)); [|reflexivity].
      apply set15. lia.
  - refine (outcome_stores _ _ _ _ _ (C50_store_multiple_proof py c i n v wb R ME GN V (conj K A)) _ S _).
    + destruct wb; okf_tac C. apply word_wrap.
    + destruct wb; plain_pc P.
  - pose proof (C54_mrs_partial_proof py c i d y R GD Y (conj K A)) as H. destruct (special_read (reg c) y) as [r|] eqn:E.
    + refine (outcome_runs _ _ _ _ _ H _ _ (object_same _ _ S)); [okf_tac C|plain_pc P].
      apply (special_read_word c y r R E).
    + apply (outcome_none _ _ _ _ H); assumption.
  - refine (outcome_runs _ _ _ _ _ (C54_hint_proof py c i _ R (or_intror eq_refl) K) _ _ (object_same _ _ S)); [okf_tac C|plain_pc P].
Qed.
