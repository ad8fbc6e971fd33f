(** * Proofs about moving code and changing the interpreter *)
(*@imports
From Coq Require Import ZArith List String Bool Lia.
From Verif Require Import ExecModel DisasmModel FormatModel SpecBits SpecCpu SpecWhole SpecDecoder SpecExec SpecFormat SpecIsa SpecDisasm SpecPort PortThms.
Local Open Scope Z_scope.
@*)
From Coq Require Import ZArith List Lia Bool String.
From Verif Require Import TreeFacts ExecModel DisasmModel FormatModel TableModel SpecBits SpecCpu SpecWhole SpecDecoder SpecExec SpecFormat SpecIsa SpecDisasm SpecPort DecThms ExecRefThms IsaThms DisasmThms FormatThms.
Local Open Scope Z_scope.

(** ** Handlers do not look at the address *)
Ltac open_h := cbv [h_adc h_add_imm_t1 h_add_imm_t2 h_add_reg_t1 h_add_reg_t2 h_add_sp_plus_imm_t1 h_add_sp_plus_reg_t1 h_add_sp_plus_reg_t2 h_add_sp_plus_imm_t2 h_shift_imm_t1 h_rsb h_rsb_w h_mul_t1 h_mul_t2 h_adr_t1 h_adr_t2 h_extend h_extend2 h_rev h_rev_w h_mov_reg h_movs_reg h_mov_reg_t3 h_mov1 h_mov2 h_movw h_mvn h_mvnw h_cmp1 h_cmp3 h_cmp4 h_cmp2 h_tst h_tst_w h_b_t1 h_b_t2 h_bl_t1 h_blx_t1 h_bx_t1 h_ldr_str_reg h_ldr_str_reg_t2 h_ldr_str_imm h_ldr_literal h_ldr_literal_w h_ldr_str_imm_t2 h_push_t1 h_push_t2 h_push_t3 h_pop_t1 h_pop_t2 h_pop_t3 h_stm_ldm_t1 h_stm_t2 h_ldm_t2 h_cps h_bkpt h_mrs h_msr h_nop h_barrier h_udf_t1 h_udf_t2 fst snd].
Ltac open_sets := cbv [set_d set_n set_m set_t set_imm32 set_setflags set_shift_t set_shift_n set_rotation set_with_link set_cond set_pc_delta set_index set_add set_wback set_registers set_enable set_affectPri set_affectFault set_SYSm add_mnemonic set_mnemonic set_operands set_attrs at_address i_mnemonic i_word i_is32 i_address i_klass i_operands i_attrs].
Lemma bind_on_ok : forall A (g : insn -> insn) (e : res A) f f', (forall x, f x = on_ok g (f' x)) -> bind e f = on_ok g (bind e f').
Proof. intros A g [x|e] f f' H; [apply H|reflexivity]. Qed.
Ltac h_step :=
  cbv zeta;
  match goal with
  | |- bind ?e _ = on_ok _ (bind ?e' _) => apply bind_on_ok; intros ?
  | |- (match ?e with pair _ _ => _ end) = on_ok _ _ => destruct e
  | |- (if ?b then _ else _) = on_ok _ (if ?b' then _ else _) => change b with b'; destruct b'
  | |- Err _ = _ => exact eq_refl
  | |- Ok _ = _ => exact eq_refl
  end.
Ltac args_step :=
  match goal with
  | |- (match ?l with [] => _ | _ :: _ => _ end) = _ => is_var l; destruct l
  end.
Lemma handler_address : forall h py i args b,
  snd (handler_of h) py (at_address b i) args = on_ok (at_address b) (snd (handler_of h) py i args).
Proof.
  intros h py [m w is a k ops at_] args b. unfold at_address at 1. cbn [i_mnemonic i_word i_is32 i_address i_klass i_operands i_attrs].
  destruct h; cbn [handler_of]; open_h; repeat args_step; try match goal with |- Err _ = _ => exact eq_refl end; unfold label_of_imm32; open_sets; repeat h_step.
Qed.

(** ** Decoding *)
Lemma call_handler_address : forall py h i fs b,
  call_handler py h (at_address b i) fs = on_ok (at_address b) (call_handler py h i fs).
Proof.
  intros py h i fs b. unfold call_handler. pose proof (handler_address h py i) as HA. destruct (handler_of h) as [sg f]. cbn [snd] in HA.
  destruct (all_some _) as [args|]; [|reflexivity]. destruct (Nat.eqb _ _); [apply HA|reflexivity].
Qed.
Lemma decode_one_address : forall py d w a b,
  decode_one call_handler py d w b = on_ok (at_address b) (decode_one call_handler py d w a).
Proof. intros py d w a b. unfold decode_one. apply bind_on_ok. intros fs. cbv zeta. rewrite <- call_handler_address. reflexivity. Qed.
Lemma try_decoders_address : forall py ds w a b,
  try_decoders call_handler py ds w b = on_ok (at_address b) (try_decoders call_handler py ds w a).
Proof.
  intros py ds w a b. induction ds as [|d ds IH]; cbn [try_decoders]; [reflexivity|].
  destruct (check d w); [|exact IH]. rewrite (decode_one_address py d w a b).
  destruct (decode_one call_handler py d w a) as [i|e]; [reflexivity|]. cbn [on_ok]. destruct e; try reflexivity; exact IH.
Qed.
Lemma tree_decode_address : forall py t w a b,
  tree_decode call_handler py t w b = (fst (tree_decode call_handler py t w a), on_ok (at_address b) (snd (tree_decode call_handler py t w a))).
Proof.
  intros py. fix IH 1. intros [ds|mask ch|] w a b; cbn [tree_decode]; [cbn [fst snd]; f_equal; apply try_decoders_address| |reflexivity].
  match goal with |- (let '(_, _) := ?g ch in _) = _ => assert (G : forall l, l = ch -> True) by (intros; exact I) end. clear G.
  assert (G : forall l,
    (fix go (ch : list (Z * tree hid)) : list (Z * tree hid) * res insn :=
        match ch with
        | [] => ([(Z.land w mask, EmptyList)], Err AttributeError)
        | (k', t') :: ch' =>
          if Z.land w mask =? k' then let '(t'', r) := tree_decode call_handler py t' w b in ((k', t'') :: ch', r)
          else let '(ch'', r) := go ch' in ((k', t') :: ch'', r)
        end) l =
    (let p := (fix go (ch : list (Z * tree hid)) : list (Z * tree hid) * res insn :=
        match ch with
        | [] => ([(Z.land w mask, EmptyList)], Err AttributeError)
        | (k', t') :: ch' =>
          if Z.land w mask =? k' then let '(t'', r) := tree_decode call_handler py t' w a in ((k', t'') :: ch', r)
          else let '(ch'', r) := go ch' in ((k', t') :: ch'', r)
        end) l in (fst p, on_ok (at_address b) (snd p)))).
  { fix IHl 1. intros [|[k' t'] l]; [reflexivity|]. cbv zeta. destruct (Z.land w mask =? k').
    - rewrite (IH t' w a b). destruct (tree_decode call_handler py t' w a) as [t'' r]. reflexivity.
    - pose proof (IHl l) as E. cbv zeta in E. rewrite E.
      match goal with |- context [fst (?g l)] => destruct (g l) as [c r] end. reflexivity. }
  cbv zeta. rewrite (G ch). cbv zeta.
  match goal with |- context [fst (?g ch)] => destruct (g ch) as [c r] end. reflexivity.
Qed.
Lemma decode_address : forall py t data a b,
  decode call_handler py t data b = (fst (decode call_handler py t data a), on_ok (at_address b) (snd (decode call_handler py t data a))).
Proof.
  intros py t data a b. unfold decode. destruct (negb _); [reflexivity|]. destruct (bytes_to_le16 data 0) as [hw1|e]; [|reflexivity].
  destruct (is_32bit_prefix hw1).
  - destruct (_ <? 4); [reflexivity|]. destruct (bytes_to_le16 data 2) as [hw2|e]; [|reflexivity]. cbv zeta.
    rewrite (tree_decode_address py (t_32 t) _ a b). destruct (tree_decode _ _ _ _ a) as [t' r]. reflexivity.
  - rewrite (tree_decode_address py (t_16 t) _ a b). destruct (tree_decode _ _ _ _ a) as [t' r]. reflexivity.
Qed.
(*@doc C73: decoding the same bytes at another address gives the same instruction at that
address, or the same exception. @*)
Lemma C73_decode_proof : forall py data a b, decode_bytes py data b = on_ok (at_address b) (decode_bytes py data a).
Proof.
  intros py data a b. unfold decode_bytes. apply bind_on_ok. intros t. rewrite (decode_address py t data a b). reflexivity.
Qed.
(*@ex
Example C73_decode_ex : exists i, decode_bytes Py2 [17; 48] 34 = Ok i /\ i_mnemonic i = "adds"%string /\
  decode_bytes Py2 [17; 48] 4096 = Ok (mkinsn "adds" 12305 false 4096 AddSub (i_operands i) (i_attrs i)).
Proof. eexists. split; [vm_compute; reflexivity|]. vm_compute. split; reflexivity. Qed.
@*)

Lemma i_size_at : forall b i, i_size (at_address b i) = i_size i.
Proof. intros b i. reflexivity. Qed.
Lemma decoded_address : forall py data a i, decode_bytes py data a = Ok i -> i_address i = a.
Proof.
  intros py data a i D. pose proof (C73_decode_proof py data a a) as E. rewrite D in E. cbn [on_ok] in E.
  apply (f_equal (fun r => match r with Ok x => i_address x | Err _ => a end)) in E. exact E.
Qed.
(*@doc C73: a block of code disassembled elsewhere gives the same instructions, each moved by
the same distance, and ends the same way. @*)
Lemma C73_listing_proof : forall py a data l r d, listing py a data l r -> listing py (a + d) data (map (moved_by d) l) r.
Proof.
  intros py a data l r d L. induction L as [a|a data N D S|a data e N D S|a data i l r D L IH]; cbn [map].
  - apply listing_end.
  - apply listing_rest; [exact N| |exact S]. rewrite (C73_decode_proof py data a (a + d)), D. reflexivity.
  - apply listing_fails; [exact N| |exact S]. rewrite (C73_decode_proof py data a (a + d)), D. reflexivity.
  - apply listing_step.
    + rewrite (C73_decode_proof py data a (a + d)), D. cbn [on_ok]. unfold moved_by. rewrite (decoded_address _ _ _ _ D). reflexivity.
    + unfold moved_by. rewrite i_size_at. replace (a + d + i_size i) with (a + i_size i + d) by lia. exact IH.
Qed.
(*@doc C73: the same for the generator, whatever the module has decoded before the two calls. @*)
Lemma C73_disasm_proof : forall py t t' data a b, bytes data -> module_tree t -> module_tree t' ->
  let '(_, l, r) := disasm py t data a in let '(_, l', r') := disasm py t' data b in
  l' = map (moved_by (b - a)) l /\ r' = r.
Proof.
  intros py t t' data a b B M M'. pose proof (C32_listing_proof py t data a B M) as L. pose proof (C32_listing_proof py t' data b B M') as L'.
  destruct (disasm py t data a) as [[u l] r]. destruct (disasm py t' data b) as [[u' l'] r']. destruct L as [_ L]. destruct L' as [_ L'].
  apply (C73_listing_proof py a data l r (b - a)) in L. replace (a + (b - a)) with b in L by lia.
  exact (C32_unique_proof py b data l' r' _ _ L' L).
Qed.
(*@ex
Example C73_disasm_ex : match DECODER_TREE with
  | Ok t => let '(_, l, r) := disasm Py2 t [0; 191; 0; 240; 3; 248; 17; 43; 0; 240] 100 in
      let '(_, l', r') := disasm Py2 t [0; 191; 0; 240; 3; 248; 17; 43; 0; 240] 5000 in
      map i_address l = [100; 102; 106] /\ map i_address l' = [5000; 5002; 5006] /\ l' = map (moved_by 4900) l /\ r = r'
  | Err _ => False
  end.
Proof. vm_compute. repeat split; reflexivity. Qed.
@*)

(** ** Executing *)
Definition same_op {A} (m : comp A) : Prop := forall c i j, alike i j ->
  m (mkst c j) = (mkst (s_cpu (fst (m (mkst c i)))) (attrs_of (s_self (fst (m (mkst c i)))) j), snd (m (mkst c i))) /\
  alike (s_self (fst (m (mkst c i)))) (attrs_of (s_self (fst (m (mkst c i)))) j).
Lemma attrs_of_self : forall i j, alike i j -> attrs_of i j = j.
Proof. intros i [m w is a k o t] (K & S & A). cbn in A. unfold attrs_of. rewrite A. reflexivity. Qed.
Lemma attrs_of_of : forall x i j, attrs_of x (attrs_of i j) = attrs_of x j.
Proof. reflexivity. Qed.
Lemma so_bind : forall A B (m : comp A) (f : A -> comp B), same_op m -> (forall a, same_op (f a)) -> same_op (mbind m f).
Proof.
  intros A B m f M F c i j H. destruct (M c i j H) as [E K]. unfold mbind. rewrite E. destruct (m (mkst c i)) as [[c' i'] [a|e]]; cbn [fst snd s_cpu s_self] in *.
  - exact (F a c' i' _ K).
  - split; [reflexivity|exact K].
Qed.
Ltac so_triv := intros ? ? ? H; cbn [fst snd s_cpu s_self]; rewrite (attrs_of_self _ _ H); split; [try reflexivity|exact H].
Lemma so_getc : forall A (f : cpu -> res A), same_op (getc f).
Proof. intros A f. unfold getc. so_triv. Qed.
Lemma so_lift : forall A (r : res A), same_op (lift r).
Proof. intros A r. unfold lift. so_triv. Qed.
Lemma so_setc : forall f, same_op (setc f).
Proof. intros f c i j H. unfold setc. cbn [s_cpu s_self]. destruct (f c) as [c'|e]; cbn [fst snd s_cpu s_self]; rewrite (attrs_of_self _ _ H); split; try reflexivity; exact H. Qed.
Lemma so_ret : forall A (x : A), same_op (ret x).
Proof. intros A x. unfold ret. so_triv. Qed.
Lemma so_fail : forall A e, same_op (@fail A e).
Proof. intros A e. unfold fail. so_triv. Qed.
Lemma so_attr : forall A (f : attrs -> option A), same_op (ExecModel.attr f).
Proof. intros A f c i j H. unfold ExecModel.attr. cbn [fst snd s_cpu s_self]. rewrite (attrs_of_self _ _ H). rewrite (proj2 (proj2 H)). split; [reflexivity|exact H]. Qed.
Lemma so_hasattr : forall A (f : attrs -> option A), same_op (hasattr f).
Proof. intros A f c i j H. unfold hasattr. cbn [fst snd s_cpu s_self]. rewrite (attrs_of_self _ _ H). rewrite (proj2 (proj2 H)). split; [reflexivity|exact H]. Qed.
Lemma so_setattr : forall f, same_op (setattr f).
Proof.
  intros f c i j (K & S & A). unfold setattr. cbn [fst snd s_cpu s_self]. split.
  - unfold set_attrs, attrs_of. cbn [i_attrs]. rewrite A. reflexivity.
  - split; [exact K|]. split; [exact S|reflexivity].
Qed.
Lemma so_size : same_op size.
Proof. intros c i j H. unfold size. cbn [fst snd s_cpu s_self]. rewrite (attrs_of_self _ _ H). rewrite (proj1 (proj2 H)). split; [reflexivity|exact H]. Qed.
Ltac so_step :=
  match goal with
  | |- same_op (mbind _ _) => apply so_bind; [|intros ?]
  | |- same_op (setc _) => apply so_setc
  | |- same_op (rset _ _) => apply so_setc
  | |- same_op (fset _ _) => apply so_setc
  | |- same_op (rget _) => apply so_getc
  | |- same_op (fget _) => apply so_getc
  | |- same_op (getc _) => apply so_getc
  | |- same_op (lift _) => apply so_lift
  | |- same_op (if ?b then _ else _) => destruct b
  | |- same_op (match ?x with _ => _ end) => destruct x
  | |- same_op (ret _) => apply so_ret
  | |- same_op (fail _) => apply so_fail
  | |- same_op (ExecModel.attr _) => apply so_attr
  | |- same_op (hasattr _) => apply so_hasattr
  | |- same_op (setattr _) => apply so_setattr
  | |- same_op size => apply so_size
  | |- same_op pc_next => unfold pc_next, pc_add
  | |- same_op (put_imm _ _) => unfold put_imm
  | |- same_op (listed _ _) => unfold listed
  end.
Lemma so_store_loop : forall py l a, same_op (store_loop py l a).
Proof. intros py. induction l as [|k l IH]; intros a; cbn [store_loop]; unfold listed, write32; repeat first [apply IH | so_step]. Qed.
Lemma so_load_loop : forall py l a, same_op (load_loop py l a).
Proof. intros py. induction l as [|k l IH]; intros a; cbn [load_loop]; unfold listed; repeat first [apply IH | so_step]. Qed.
Lemma so_eval : forall py k, same_op (eval py k).
Proof.
  intros py k. destruct k; cbn [eval]; unfold eval_Instruction, eval_AddSub, eval_BitOp, eval_BitClear, eval_ShiftOp, eval_ReverseSubtract,
    eval_Multiply, eval_AddressToRegister, eval_Extend, eval_ByteReverse, eval_Move, eval_ShiftedMoveNegate, eval_Compare, eval_Test,
    eval_Branch, eval_Load, eval_Store, eval_LoadLiteral, eval_Push, eval_Pop, eval_LoadMultiple, eval_StoreMultiple,
    eval_ChangeProcessorState, eval_MoveFromSpecial, eval_MoveToSpecial, mrs_xpsr, mrs_sp, mrs_mask, mrs_bit, pc_next, pc_add, set_flags,
    imm_or_m, put_imm, add_shared, address_of, listed, list_bytes, load_pc, wreg, rreg, sysm_is, sysm_bit, set_slice;
  repeat first [apply so_store_loop | apply so_load_loop | so_step].
Qed.
(*@doc C73: what an instruction does depends on its class, its size, its attributes and the
machine only: two objects that agree in these leave the same machine and the same
attributes behind and raise the same exception, whatever their addresses, words,
mnemonics and operands. @*)
Lemma C73_execute_proof : forall py c i j, alike i j ->
  let '(s, r) := execute py c i in execute py c j = (mkst (s_cpu s) (attrs_of (s_self s) j), r).
Proof.
  intros py c i j H. unfold execute. rewrite <- (proj1 H). pose proof (so_eval py (i_klass i) c i j H) as [E _].
  destruct (eval py (i_klass i) (mkst c i)) as [s r]. exact E.
Qed.
(*@ex
Example C73_execute_ex : exists i j, decode_bytes Py2 [17; 48] 34 = Ok i /\ decode_bytes Py2 [17; 48] 4096 = Ok j /\ i <> j /\ alike i j /\
  reg_after Py2 ex_state j 0 = reg ex_state 0 + 17.
Proof. eexists. eexists. split; [vm_compute; reflexivity|]. split; [vm_compute; reflexivity|]. split; [discriminate|]. split; vm_compute; repeat split; reflexivity. Qed.
@*)
(*@doc C73: in particular a decoded instruction does the same wherever its bytes were decoded. @*)
Lemma C73_moved_proof : forall py c data a b i, decode_bytes py data a = Ok i -> exists j, decode_bytes py data b = Ok j /\
  let '(s, r) := execute py c i in execute py c j = (mkst (s_cpu s) (at_address b (s_self s)), r).
Proof.
  intros py c data a b i D. exists (at_address b i). split; [rewrite (C73_decode_proof py data a b), D; reflexivity|].
  pose proof (C73_execute_proof py c i i ltac:(repeat split)) as S.
  pose proof (C73_execute_proof py c i (at_address b i) ltac:(repeat split)) as E. destruct (execute py c i) as [[c' i'] r].
  cbn [s_cpu s_self] in *. rewrite E. apply (f_equal (fun p => s_self (fst p))) in S. cbn [fst s_self] in S. rewrite S. reflexivity.
Qed.
(*@ex
Example C73_moved_ex : exists i j, decode_bytes Py2 [1; 72] 34 = Ok i /\ decode_bytes Py2 [1; 72] 4096 = Ok j /\
  reg_after Py2 ex_state i 0 = reg_after Py2 ex_state j 0 /\ reg_after Py2 ex_state i 15 = reg ex_state 15 + 2.
Proof. eexists. eexists. split; [vm_compute; reflexivity|]. split; [vm_compute; reflexivity|]. split; vm_compute; reflexivity. Qed.
@*)

(** ** Formatting *)
Definition fmt_at (b : Z) (f : formatter) : formatter :=
  mkfmt (match f_instruction f with Some i => Some (at_address b i) | None => None end) (f_comments f).
Definition third {A B C} (g : B -> B) (r : res (A * B * C)) : res (A * B * C) := on_ok (fun '(x, y, z) => (x, g y, z)) r.
Lemma add_comment_at : forall b f s, add_comment (fmt_at b f) s = fmt_at b (add_comment f s).
Proof. reflexivity. Qed.
Lemma immediate_at : forall b f v h, format_immediate (fmt_at b f) v h = (fmt_at b (fst (format_immediate f v h)), snd (format_immediate f v h)).
Proof. intros b f v h. unfold format_immediate. destruct (_ && _); [reflexivity|]. destruct (9 <? v); reflexivity. Qed.
Lemma immediate_bits_at : forall b f v, format_immediate_bits (fmt_at b f) v = on_ok (fun '(f', s) => (fmt_at b f', s)) (format_immediate_bits f v).
Proof. intros b f v. unfold format_immediate_bits. destruct (bs_gt v (VInt 9)) as [[w above]|e]; [|reflexivity]. cbn [bind on_ok]. destruct above; reflexivity. Qed.
Lemma operand_at : forall b o f, is_label o = false -> format_operand (fmt_at b f) o = third (fmt_at b) (format_operand f o).
Proof.
  intros b. fix IH 1. intros o f. destruct o as [reg wback|l|imm hide| |offset|type amount|option|operands|pri fault|spec mask]; cbn [is_label format_operand]; intros N.
  - destruct (format_register reg wback); reflexivity.
  - destruct (format_reglist l); reflexivity.
  - rewrite immediate_at. destruct (format_immediate f imm hide). reflexivity.
  - unfold fmt_at at 1. cbn [f_instruction]. destruct (f_instruction f) as [i|]; [|reflexivity]. cbn [at_address i_attrs].
    destruct (a_imm32 (i_attrs i)) as [v|]; [|reflexivity]. rewrite immediate_bits_at. destruct (format_immediate_bits f v) as [[f' s]|e]; reflexivity.
  - discriminate N.
  - destruct (format_shift type amount); reflexivity.
  - reflexivity.
  - assert (G : forall l f, existsb is_label l = false ->
      (fix go (f : formatter) (l : list operand) : res (list operand * formatter * list string) :=
        match l with
        | [] => Ok ([], f, [])
        | x :: l' =>
          let* '(x', f', s) := format_operand f x in
          let* '(l'', f'', ss) := go f' l' in
          Ok (x' :: l'', f'', match s with Some t => t :: ss | None => ss end)
        end) (fmt_at b f) l =
      third (fmt_at b) ((fix go (f : formatter) (l : list operand) : res (list operand * formatter * list string) :=
        match l with
        | [] => Ok ([], f, [])
        | x :: l' =>
          let* '(x', f', s) := format_operand f x in
          let* '(l'', f'', ss) := go f' l' in
          Ok (x' :: l'', f'', match s with Some t => t :: ss | None => ss end)
        end) f l)).
    { clear f N operands. fix IHl 1. intros [|x l] f N; [reflexivity|]. cbn [existsb] in N. apply orb_false_iff in N. destruct N as [Nx Nl].
      rewrite (IH x f Nx). destruct (format_operand f x) as [[[x' f'] s]|e]; [|reflexivity]. cbn [third on_ok bind].
      rewrite (IHl l f' Nl). match goal with |- context [third _ (?g f' l)] => destruct (g f' l) as [[[l'' f''] ss]|e] end; reflexivity. }
    rewrite (G operands f N). match goal with |- context [third _ (?g f operands)] => destruct (g f operands) as [[[l'' f''] ss]|e] end; reflexivity.
  - reflexivity.
  - destruct (format_special spec mask) as [[m s]|e]; reflexivity.
Qed.
Lemma operands_at : forall b l f, existsb is_label l = false -> format_operands (fmt_at b f) l = third (fmt_at b) (format_operands f l).
Proof.
  intros b. induction l as [|x l IH]; intros f N; cbn [format_operands]; [reflexivity|]. cbn [existsb] in N. apply orb_false_iff in N. destruct N as [Nx Nl].
  rewrite (operand_at b x f Nx). destruct (format_operand f x) as [[[x' f'] s]|e]; [|reflexivity]. cbn [third on_ok bind].
  rewrite (IH f' Nl). destruct (format_operands f' l) as [[[l'' f''] ss]|e]; reflexivity.
Qed.
(*@doc C73: the text of an instruction without label operands is the same at every address. @*)
Lemma C73_text_proof : forall f b i, has_label i = false ->
  format f (at_address b i) = on_ok (fun '(i', f', text) => (at_address b i', f', text)) (format f i).
Proof.
  intros f b i N. unfold format. change (i_bytes (at_address b i)) with (i_bytes i). destruct (byte_string (i_bytes i)) as [s|e]; [|reflexivity].
  cbn [bind]. change (mkfmt (Some (at_address b i)) []) with (fmt_at b (mkfmt (Some i) [])).
  change (i_operands (at_address b i)) with (i_operands i). rewrite (operands_at b _ _ N).
  destruct (format_operands _ (i_operands i)) as [[[ops g] ss]|e]; reflexivity.
Qed.
(*@ex
Example C73_text_ex : exists i, decode_bytes Py2 [17; 48] 34 = Ok i /\ has_label i = false /\
  text_of (mkfmt None []) (at_address 4096 i) = Ok "3011         adds    r0, #17         ; 0x11"%string.
Proof. eexists. split; [vm_compute; reflexivity|]. split; vm_compute; reflexivity. Qed.
@*)

(** ** The two interpreters *)
Definition named (r r' : res insn) : Prop :=
  match r, r' with Ok i, Ok j => exists m, j = renamed m i | Err e, Err e' => e = e' | _, _ => False end.
Lemma named_refl : forall r, named r r.
Proof. intros [[m w is a k o t]|e]; [exists m|]; reflexivity. Qed.
Lemma named_bind : forall A (e : res A) f f', (forall x, named (f x) (f' x)) -> named (bind e f) (bind e f').
Proof. intros A [x|e] f f' H; [apply H|reflexivity]. Qed.
Ltac named_end := match goal with |- named (Ok _) (Ok ?j) => exists (i_mnemonic j); open_sets; cbv [renamed i_mnemonic i_word i_is32 i_address i_klass i_operands i_attrs]; exact eq_refl end.
Lemma handler_named : forall h i args, named (snd (handler_of h) Py2 i args) (snd (handler_of h) Py3 i args).
Proof.
  intros h [mn w is a k ops t] args. destruct h; cbn [handler_of];
    lazymatch goal with |- context [h_mov_reg_t3] => idtac | |- context [h_mov2] => idtac | |- context [h_mvnw] => idtac | _ => exact (named_refl _) end.
  all: cbn [h_mov_reg_t3 h_mov2 h_mvnw snd].
  all: repeat match goal with |- named (match ?l with [] => _ | _ :: _ => _ end) _ => is_var l; destruct l; try exact eq_refl end.
  all: cbv zeta; repeat (apply named_bind; intros ?).
  all: repeat match goal with |- named (match ?p with pair _ _ => _ end) _ => destruct p end; named_end.
Qed.
Lemma call_handler_named : forall h i fs, named (call_handler Py2 h i fs) (call_handler Py3 h i fs).
Proof.
  intros h i fs. unfold call_handler. pose proof (handler_named h i) as HA. destruct (handler_of h) as [sg f]. cbn [snd] in HA.
  destruct (all_some _) as [args|]; [|reflexivity]. destruct (Nat.eqb _ _); [apply HA|reflexivity].
Qed.
Lemma decode_one_named : forall d w a, named (decode_one call_handler Py2 d w a) (decode_one call_handler Py3 d w a).
Proof. intros d w a. unfold decode_one. apply named_bind. intros fs. cbv zeta. apply call_handler_named. Qed.
Lemma try_decoders_named : forall ds w a, named (try_decoders call_handler Py2 ds w a) (try_decoders call_handler Py3 ds w a).
Proof.
  intros ds w a. induction ds as [|d ds IH]; cbn [try_decoders]; [reflexivity|].
  destruct (check d w); [|exact IH]. pose proof (decode_one_named d w a) as N.
  destruct (decode_one call_handler Py2 d w a) as [i|e], (decode_one call_handler Py3 d w a) as [i'|e']; cbn [named] in N; try contradiction N; [exact N|].
  subst e'. destruct e; try reflexivity; exact IH.
Qed.
Lemma tree_decode_named : forall t w a,
  named (snd (tree_decode call_handler Py2 t w a)) (snd (tree_decode call_handler Py3 t w a)).
Proof.
  intros t w a. induction t as [ds| |m ch IH] using tree_rect'; [apply try_decoders_named|reflexivity|].
  rewrite !decode_node. induction IH as [|[k t] ch Ht Hch IHch]; cbn [dict_get fst snd] in *; [reflexivity|].
  destruct (Z.land w m =? k); [exact Ht|exact IHch].
Qed.
Lemma decode_named : forall t data a, named (snd (decode call_handler Py2 t data a)) (snd (decode call_handler Py3 t data a)).
Proof.
  intros t data a. unfold decode. destruct (negb _); [reflexivity|]. destruct (bytes_to_le16 data 0) as [hw1|e]; [|reflexivity].
  destruct (is_32bit_prefix hw1).
  - destruct (_ <? 4); [reflexivity|]. destruct (bytes_to_le16 data 2) as [hw2|e]; [|reflexivity]. cbv zeta.
    pose proof (tree_decode_named (t_32 t) (Z.lor hw1 (Z.shiftl hw2 16)) a) as N.
    destruct (tree_decode _ Py2 _ _ a) as [t' r], (tree_decode _ Py3 _ _ a) as [t'' r']. exact N.
  - pose proof (tree_decode_named (t_16 t) hw1 a) as N.
    destruct (tree_decode _ Py2 _ _ a) as [t' r], (tree_decode _ Py3 _ _ a) as [t'' r']. exact N.
Qed.
Lemma decode_bytes_named : forall data a, named (decode_bytes Py2 data a) (decode_bytes Py3 data a).
Proof. intros data a. unfold decode_bytes. apply named_bind. intros t. apply decode_named. Qed.

Definition out_name (o : outcome) : outcome := match o with Gives m k l ops => Gives (py3_name m) k l ops | o => o end.
Lemma rows_py3 : Forall (fun r => forall w, observed Py3 r w = out_name (observed Py2 r w)) (isa16 ++ isa32).
Proof.
  apply Forall_app. split; unfold isa16, isa32;
  repeat (apply Forall_cons; [intros w; unfold observed, documented; cbn [r_dev row row_dev r_text r_doc];
    try match goal with |- context [field ?t w] => generalize (field t w) as f; intro f end;
    repeat match goal with |- context [if ?b then _ else _] => destruct b end; try reflexivity|]);
  apply Forall_nil.
Qed.

Lemma decode_rows : forall data, bytes data -> (2 <= List.length data)%nat ->
  (forall py a, exists e, decode_bytes py data a = Err e) \/
  exists w is32 r, In r (isa16 ++ isa32) /\ forall py a, decode_bytes py data a = decoded is32 w a (observed py r w).
Proof.
  intros data B L. destruct C31_builds_proof as [t E]. unfold decode_bytes. rewrite E. cbn [bind].
  destruct data as [|b0 [|b1 rest]]; cbn [List.length] in L; [lia | lia|].
  inversion B as [|? ? B0 B']; subst. inversion B' as [|? ? B1 B'']; subst.
  destruct (prefix_dec (b1 / 8)) as [P|P].
  - destruct rest as [|b2 [|b3 rest]].
    + left. intros py a. eexists. exact (proj1 (proj2 (proj2 (C27_short_proof _ call_handler py t a b0 b1 B0 B1)) P)).
    + left. intros py a. eexists. exact (proj2 (proj2 (proj2 (C27_short_proof _ call_handler py t a b0 b1 B0 B1)) P) b2).
    + inversion B'' as [|? ? B2 C]; subst. inversion C as [|? ? B3 C']; subst.
      pose proof (fun py a => C31_decode32_proof t py a b0 b1 b2 b3 rest E B0 B1 B2 B3 P) as D. cbv zeta in D.
      set (w := b0 + 256 * b1 + 65536 * b2 + 16777216 * b3) in *.
      destruct (row_for isa32 w) as [r|] eqn:F.
      * right. exists w, true, r. destruct (row_for_in _ _ _ F) as [I1 _]. split; [apply in_or_app; right; exact I1|exact D].
      * left. intros py a. destruct (D py a) as [X|X]; eexists; exact X.
  - pose proof (fun py a => C31_decode16_proof t py a b0 b1 rest E B0 B1 P) as D. set (w := b0 + 256 * b1) in *.
    destruct (row_for isa16 w) as [r|] eqn:F.
    + right. exists w, false, r. destruct (row_for_in _ _ _ F) as [I1 _]. split; [apply in_or_app; left; exact I1|exact D].
    + left. intros py a. destruct (D py a) as [X|X]; eexists; exact X.
Qed.
(*@doc C74: Python 3 decodes bytes to what Python 2 decodes them to, or raises the same
exception; only the mnemonics mov.w and mvn.w become movs.w and mvns.w. @*)
Lemma C74_decode_partial_proof : forall data a, bytes data -> decode_bytes Py3 data a = on_ok py3_insn (decode_bytes Py2 data a).
Proof.
  intros data a B. pose proof (decode_bytes_named data a) as N.
  assert (K : (forall py, exists e, decode_bytes py data a = Err e) -> decode_bytes Py3 data a = on_ok py3_insn (decode_bytes Py2 data a)).
  { intros K. destruct (K Py2) as [e E]. destruct (K Py3) as [e' E']. rewrite E, E' in *. cbn [named] in N. subst e'. reflexivity. }
  destruct (le_lt_dec 2 (List.length data)) as [L|L].
  - destruct (decode_rows data B L) as [X|(w & is32 & r & I & X)]; [apply K; intros py; apply X|]. rewrite !X.
    rewrite (proj1 (Forall_forall _ _) rows_py3 r I w). destruct (observed Py2 r w) as [m k l ops| | |e]; reflexivity.
  - apply K. intros py. exists AssertionError. destruct C31_builds_proof as [t E]. unfold decode_bytes. rewrite E. cbn [bind].
    destruct data as [|b0 [|b1 data]]; [reflexivity|reflexivity|cbn [List.length] in L; lia].
Qed.
(*@ex
Example C74_decode_partial_ex : (exists i, decode_bytes Py2 [17; 48] 34 = Ok i /\ decode_bytes Py3 [17; 48] 34 = Ok i) /\
  (exists i, decode_bytes Py2 [95; 234; 3; 0] 0 = Ok i /\ i_mnemonic i = "movs.w"%string /\ decode_bytes Py3 [95; 234; 3; 0] 0 = Ok i) /\
  (exists i, decode_bytes Py2 [79; 234; 3; 0] 0 = Ok i /\ i_mnemonic i = "mov.w"%string /\ decode_bytes Py3 [79; 234; 3; 0] 0 = Ok (renamed "movs.w" i)).
Proof.
  split; [|split]; eexists.
  - split; vm_compute; reflexivity.
  - split; [vm_compute; reflexivity|]. split; vm_compute; reflexivity.
  - split; [vm_compute; reflexivity|]. split; vm_compute; reflexivity.
Qed.
@*)
(*@doc C74: refuted for those: the same bytes are mov.w in Python 2 and movs.w in Python 3. @*)
Lemma C74_decode_refuted_proof : exists data, bytes data /\
  on_ok i_mnemonic (decode_bytes Py2 data 0) = Ok "mov.w"%string /\ on_ok i_mnemonic (decode_bytes Py3 data 0) = Ok "movs.w"%string.
Proof. exists [79; 234; 3; 0]. split; [repeat apply Forall_cons; try apply Forall_nil; lia|]. split; vm_compute; reflexivity. Qed.
(*@doc C74: the listings of the two interpreters differ in these mnemonics only. @*)
Lemma C74_listing_partial_proof : forall a data l r, bytes data -> listing Py2 a data l r -> listing Py3 a data (map py3_insn l) r.
Proof.
  intros a data l r B L. induction L as [a|a data N D S|a data e N D S|a data i l r D L IH]; cbn [map].
  - apply listing_end.
  - apply listing_rest; [exact N| |exact S]. rewrite (C74_decode_partial_proof data a B), D. reflexivity.
  - apply listing_fails; [exact N| |exact S]. rewrite (C74_decode_partial_proof data a B), D. reflexivity.
  - apply listing_step.
    + rewrite (C74_decode_partial_proof data a B), D. reflexivity.
    + change (i_size (py3_insn i)) with (i_size i). apply IH. apply bytes_skipn. exact B.
Qed.
(*@ex
Example C74_listing_partial_ex : match DECODER_TREE with
  | Ok t => let '(_, l, r) := disasm Py2 t [0; 191; 79; 234; 3; 0; 17; 43] 100 in let '(_, l', r') := disasm Py3 t [0; 191; 79; 234; 3; 0; 17; 43] 100 in
      map i_mnemonic l = ["nop"; "mov.w"; "cmp"]%string /\ map i_mnemonic l' = ["nop"; "movs.w"; "cmp"]%string /\ l' = map py3_insn l /\ r = r'
  | Err _ => False
  end.
Proof. vm_compute. repeat split; reflexivity. Qed.
@*)
(*@doc C74: an instruction of a class that does not transfer a register list does the same under
both interpreters. @*)
Lemma C74_execute_partial_proof : forall c i, transfers_list (i_klass i) = false -> execute Py3 c i = execute Py2 c i.
Proof. intros c i N. unfold execute. destruct (i_klass i); first [discriminate N | reflexivity]. Qed.
(*@ex
Example C74_execute_partial_ex : exists i, decode_bytes Py2 [17; 48] 34 = Ok i /\ transfers_list (i_klass i) = false /\
  reg_after Py3 ex_state i 0 = reg ex_state 0 + 17.
Proof. eexists. split; [vm_compute; reflexivity|]. split; vm_compute; reflexivity. Qed.
@*)
(*@doc C74: so decoding and executing bytes that decode to such a class gives the same machine and
the same exception under both. @*)
Lemma C74_bytes_partial_proof : forall c data a i, bytes data -> decode_bytes Py2 data a = Ok i -> transfers_list (i_klass i) = false ->
  exists j, decode_bytes Py3 data a = Ok j /\
  s_cpu (fst (execute Py3 c j)) = s_cpu (fst (execute Py2 c i)) /\ snd (execute Py3 c j) = snd (execute Py2 c i).
Proof.
  intros c data a i B D N. exists (py3_insn i). split; [rewrite (C74_decode_partial_proof data a B), D; reflexivity|].
  rewrite (C74_execute_partial_proof c (py3_insn i) N). pose proof (C73_execute_proof Py2 c i (py3_insn i) ltac:(repeat split)) as E.
  destruct (execute Py2 c i) as [s r]. rewrite E. split; reflexivity.
Qed.
(*@ex
Example C74_bytes_partial_ex : exists i j, decode_bytes Py2 [79; 234; 3; 0] 0 = Ok i /\ decode_bytes Py3 [79; 234; 3; 0] 0 = Ok j /\ i <> j /\
  reg_after Py3 ex_state j 0 = reg_after Py2 ex_state i 0.
Proof. eexists. eexists. split; [vm_compute; reflexivity|]. split; [vm_compute; reflexivity|]. split; [discriminate|vm_compute; reflexivity]. Qed.
@*)
(*@doc C74: refuted for the others: the same pop of r0 alone overwrites r1 under Python 3. @*)
Lemma C74_execute_refuted_proof : exists c data i, cpu_ok c /\ bytes data /\ decode_bytes Py2 data 0 = Ok i /\ decode_bytes Py3 data 0 = Ok i /\
  is_insn i Pop [Regs 1] /\ snd (execute Py2 c i) = Ok tt /\ snd (execute Py3 c i) = Ok tt /\
  reg_after Py2 c i 1 = reg c 1 /\ reg_after Py3 c i 1 <> reg c 1.
Proof.
  assert (X : exists i, decode_bytes Py2 [1; 188] 0 = Ok i /\ decode_bytes Py3 [1; 188] 0 = Ok i /\ is_insn i Pop [Regs 1] /\
    let c := ex_with [(13, 0); (1, 77)] in
    (snd (execute Py2 c i), snd (execute Py3 c i), reg_after Py2 c i 1, reg_after Py3 c i 1, reg c 1) = (Ok tt, Ok tt, 77, 0, 77)).
  { eexists. split; [vm_compute; reflexivity|]. split; [vm_compute; reflexivity|]. split; [split; vm_compute; reflexivity|]. vm_compute. reflexivity. }
  destruct X as (i & D & D' & K & E). cbv zeta in E. pairs E. exists (ex_with [(13, 0); (1, 77)]), [1; 188], i.
  split; [apply ex_with_ok; bytes_tac|]. split; [bytes_tac|]. split; [exact D|]. split; [exact D'|]. split; [exact K|].
  split; [assumption|]. split; [assumption|]. split; congruence.
Qed.
