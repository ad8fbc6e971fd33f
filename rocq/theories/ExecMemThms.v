(** * Effect of loads, stores, push, pop and multiple transfers *)
From Coq Require Import Lia ZifyBool.
From Verif Require Import BitstringModel SpecBits BitFacts BitOps BitMisc BitText BitThms HelpersModel SpecArm HelpFacts UtilFacts CpuModel SpecCpu
  CpuFacts CpuThms InsnModel ExecModel SpecExec ExecFacts ExecDataThms ExecArithThms ExecMiscThms SpecIsa.
(*@imports
From Coq Require Import Lia ZifyBool.
From Verif Require Import BitstringModel SpecBits BitFacts BitOps BitMisc BitText BitThms HelpersModel SpecArm HelpFacts UtilFacts CpuModel SpecCpu
  CpuFacts CpuThms InsnModel ExecModel SpecExec ExecFacts ExecDataThms ExecArithThms ExecMiscThms ExecMemThms SpecIsa.
Local Open Scope bool_scope.
Local Open Scope Z_scope.
@*)
Local Open Scope bool_scope.
Local Open Scope Z_scope.

(** ** Reading *)
Lemma le_bound : forall l, Forall is_byte l -> 0 <= le_number l < 256 ^ Z.of_nat (List.length l).
Proof.
  induction l as [|x l IH]; intros F; [cbn; lia|]. inversion F as [|? ? Hx F']; subst. specialize (IH F').
  cbn [le_number List.length]. rewrite Nat2Z.inj_succ, Z.pow_succ_r by lia. unfold is_byte in Hx. lia.
Qed.
Lemma size_pow : forall size, size_ok size -> 256 ^ Z.of_nat (Z.to_nat (size / 8)) = 2 ^ size.
Proof. intros size [-> |[-> | ->]]; reflexivity. Qed.
Lemma reads_ok : forall c a size v, mem_ok c -> size_ok size -> word a -> reads c a size v ->
  read_memory c (NBits (bits 32 a)) size = Ok (bits size v) /\ 0 <= v < 2 ^ size.
Proof.
  intros c a size v H S A R. destruct (C34_bitstring_arguments_proof c (bits 32 a) (bits 32 a) size) as [E _]. rewrite E, bv_word by assumption. clear E.
  destruct R as [i m l L T ->|U ->].
  - rewrite (read_located c a size i m H L S), T. split; [reflexivity|].
    destruct (take_cells_bytes _ _ _ _ _ H T) as [F N]. rewrite <- (size_pow size S), <- N. apply le_bound. assumption.
  - rewrite read_unmapped by (try assumption; destruct S as [-> |[-> | ->]]; lia). split; [reflexivity|].
    split; [lia|apply pow2_pos; destruct S as [-> |[-> | ->]]; lia].
Qed.
Lemma cut_fails : forall c a size, mem_ok c -> size_ok size -> word a -> cut_off c a size ->
  read_memory c (NBits (bits 32 a)) size = Err IndexError.
Proof.
  intros c a size H S A (i & m & L & T). destruct (C34_bitstring_arguments_proof c (bits 32 a) (bits 32 a) size) as [E _]. rewrite E, bv_word by assumption.
  rewrite (read_located c a size i m H L S), T. reflexivity.
Qed.
Lemma reads_or_cut : forall c a size, (exists v, reads c a size v) \/ cut_off c a size.
Proof.
  intros c a size. destruct (located_or_unmapped c a) as [(i & m & L)|U].
  - destruct (take_cells c i (a - m_start m) (Z.to_nat (size / 8))) as [l|] eqn:T.
    + left. exists (le_number l). exact (reads_mapped c a size _ i m l L T eq_refl).
    + right. exists i, m. split; assumption.
  - left. exists 0. apply reads_unmapped; [assumption|reflexivity].
Qed.
Lemma reads_mem : forall c c' a size v, c_mem c' = c_mem c -> reads c a size v -> reads c' a size v.
Proof.
  intros c c' a size v M [i m l L T E|U E].
  - apply (reads_mapped c' a size v i m l); [|rewrite <- T|assumption].
    + unfold located in *. rewrite M. assumption.
    + clear T. generalize (a - m_start m) as o. generalize (Z.to_nat (size / 8)) as n.
      induction n as [|n IH]; intros o; [reflexivity|]. cbn [take_cells]. rewrite IH. unfold cell. rewrite M. reflexivity.
  - apply reads_unmapped; [|assumption]. unfold unmapped in *. rewrite M. assumption.
Qed.
Lemma mem_ok_mem : forall c c', c_mem c' = c_mem c -> mem_ok c -> mem_ok c'.
Proof. intros c c' M H. unfold mem_ok in *. rewrite M. assumption. Qed.
Lemma ok_regs : forall c c', c_regs c' = c_regs c -> regs_ok c -> regs_ok c'.
Proof. intros c c' M H k K. rewrite M. exact (H k K). Qed.
Lemma reg_regs : forall c c', c_regs c' = c_regs c -> forall k, reg c' k = reg c k.
Proof. intros c c' M k. unfold reg. rewrite M. reflexivity. Qed.

(** ** Writing *)
Lemma wrote_nil : forall c c', c_mem c' = c_mem c -> wrote c c' [].
Proof.
  intros c c' M. split; [unfold layout; rewrite M; reflexivity|]. intros i o b.
  assert (E : cell c' i o = cell c i o) by (unfold cell; rewrite M; reflexivity). rewrite E. split.
  - intros <-. constructor.
  - intros L. inversion L as [|ws w v|ws w b0]; subst; [reflexivity|destruct ws; discriminate|destruct ws; discriminate].
Qed.
Lemma wrote_mem : forall c c1 c2 ws, c_mem c2 = c_mem c1 -> wrote c c1 ws -> wrote c c2 ws.
Proof.
  intros c c1 c2 ws M [L H]. split; [unfold layout in *; rewrite M; assumption|]. intros i o b.
  replace (cell c2 i o) with (cell c1 i o) by (unfold cell; rewrite M; reflexivity). apply H.
Qed.
Lemma last_snoc_miss : forall c i o ws w b, (forall v, ~ wr_byte c w i o v) -> last_byte c i o (ws ++ [w]) b -> last_byte c i o ws b.
Proof.
  intros c i o ws w b N L. inversion L as [E|ws' w' v W E|ws' w' b0 W L0 E]; subst.
  - destruct ws; discriminate.
  - apply app_inj_tail in E as [-> ->]. exfalso. exact (N v W).
  - apply app_inj_tail in E as [-> ->]. assumption.
Qed.
Lemma last_snoc_hit : forall c i o ws w v b, wr_byte c w i o v -> last_byte c i o (ws ++ [w]) b -> b = Some v.
Proof.
  intros c i o ws w v b W L. inversion L as [E|ws' w' v' W' E|ws' w' b0 W' L0 E]; subst.
  - destruct ws; discriminate.
  - apply app_inj_tail in E as [-> ->]. destruct W as (m & L1 & B1 & ->), W' as (m' & L2 & B2 & ->).
    destruct (located_fun _ _ _ _ _ _ L1 L2) as [_ <-]. reflexivity.
  - apply app_inj_tail in E as [-> ->]. exfalso. exact (W' v W).
Qed.
Lemma write_run : forall c a v size, mem_ok c -> size_ok size -> word a -> (size = 8 -> 0 <= v < 256) ->
  exists c', (forall b, bv b = v -> write_memory c (NBits (bits 32 a)) (NBits b) size = Ok c') /\ c_regs c' = c_regs c /\ mem_ok c' /\
  layout c' = layout c /\ forall c0 ws, wrote c0 c ws -> wrote c0 c' (ws ++ [mkwr a v size]).
Proof.
  intros c a v size H S A V.
  assert (Hw : (size = 8 /\ 0 <= v < 256) \/ size = 16 \/ size = 32) by (destruct S as [S |[S | S]]; subst; [left; split; [reflexivity|apply V; reflexivity]|right; left; reflexivity|right; right; reflexivity]).
  assert (E0 : forall b, bv b = v -> write_memory c (NBits (bits 32 a)) (NBits b) size = write_memory c (NInt a) (NInt v) size).
  { intros b <-. unfold write_memory. cbn [num_val]. unfold bs_unsigned. rewrite bv_word by assumption. reflexivity. }
  destruct (located_or_unmapped c a) as [(i & m & L)|U].
  - destruct (C35_write_proof c a v size i m H L Hw) as (c' & E & R & Y & K & C). exists c'.
    split; [intros b Hb; rewrite (E0 b Hb); exact E|]. split; [assumption|]. split; [assumption|]. split; [assumption|].
    intros c0 ws [L0 W]. split; [congruence|]. intros j o b.
    destruct (located_layout c _ _ _ L c0 (eq_sym L0)) as (m0 & L1 & S1 & _).
    rewrite C. cbv zeta. destruct (Nat.eqb j i && _ && _) eqn:B.
    + assert (WB : wr_byte c0 (mkwr a v size) j o ((v / 256 ^ (o - (a - m_start m))) mod 256)).
      { replace j with i by lia. exists m0. cbn [w_addr w_size w_val]. split; [assumption|]. cbv zeta. rewrite S1. split; [lia|reflexivity]. }
      split; [intros <-; apply last_hit; assumption|]. intros LB. symmetry. exact (last_snoc_hit _ _ _ _ _ _ _ WB LB).
    + assert (NB : forall v', ~ wr_byte c0 (mkwr a v size) j o v').
      { intros v' (m1 & L2 & B1 & _). cbn [w_addr w_size w_val] in *. cbv zeta in B1. destruct (located_fun _ _ _ _ _ _ L1 L2) as [-> <-].
        rewrite S1 in B1. rewrite Nat.eqb_refl in B. lia. }
      split; intros X; [apply last_miss; [assumption|apply W; assumption]|apply W; exact (last_snoc_miss _ _ _ _ _ _ NB X)].
  - exists c. split; [intros b Hb; rewrite (E0 b Hb); unfold write_memory; cbn [num_val]; apply write_unmapped; assumption|].
    split; [reflexivity|]. split; [assumption|]. split; [reflexivity|]. intros c0 ws [L0 W]. split; [assumption|]. intros j o b.
    assert (NB : forall v', ~ wr_byte c0 (mkwr a v size) j o v').
    { intros v' (m1 & L2 & _). cbn [w_addr] in L2. destruct (located_layout c0 _ _ _ L2 c L0) as (m2 & (X & Y & _) & _).
      exact (U m2 (nth_error_In _ _ X) Y). }
    split; intros X; [apply last_miss; [assumption|apply W; assumption]|apply W; exact (last_snoc_miss _ _ _ _ _ _ NB X)].
Qed.

(** ** Addresses *)
(** The offset operand of a load or store. *)
Lemma offset_word : forall add a b, word (offset_from add a b).
Proof. intros. apply word_wrap. Qed.
Lemma address_rest : forall B (f : bs * bs -> comp B) c i off add n idx, regs_ok c -> gpr n -> word off ->
  a_add (i_attrs i) = Some add -> a_n (i_attrs i) = Some n -> a_index (i_attrs i) = Some idx ->
  mbind (do add <- attr a_add;
  do n <- attr a_n;
  do base <- rget n;
  do offset_addr <- lift (if add then bs_add base (VBits (bits 32 off)) else bs_sub base (VBits (bits 32 off)));
  do index <- attr a_index;
  do address <- (if index then ret offset_addr else do n <- attr a_n; rget n);
  ret (offset_addr, address)) f (mkst c i) =
  (let (oa, ad) := addresses add idx (reg c n) off in f (bits 32 oa, bits 32 ad) (mkst c i)).
Proof.
  intros B f c i off add n idx H Gn Wo Ea En Ei. pose proof (word_gpr c n H Gn) as Wn. unfold addresses.
  rewrite bind_assoc, (bind_attr _ _ _ _ _ _ _ Ea), bind_assoc, (bind_attr _ _ _ _ _ _ _ En), bind_assoc. at_get.
  rewrite bind_assoc, (bind_lift _ _ _ _ _ _ (offset_ok add _ _ Wn Wo)), bind_assoc, (bind_attr _ _ _ _ _ _ _ Ei), bind_assoc.
  destruct idx; [rewrite !bind_ret; reflexivity|]. rewrite bind_assoc, (bind_attr _ _ _ _ _ _ _ En). at_get. rewrite bind_ret. reflexivity.
Qed.
Lemma shift_word : forall ty v amount cin, word v -> 0 <= amount -> (ty = SR_RRX -> amount = 1) ->
  Shift (bits 32 v) ty amount (bitv cin) = Ok (bits 32 (fst (shift_result ty 32 v amount cin))).
Proof.
  intros ty v amount cin V A T. unfold Shift. rewrite shift32 by assumption. reflexivity.
Qed.

(** ** Single loads and stores *)
Lemma extended_word : forall w sgn v, size_ok w -> 0 <= v < 2 ^ w -> word (extended w sgn v).
Proof.
  intros w sgn v S V. unfold extended. destruct sgn; [apply word_wrap|]. apply mod_word. destruct S as [-> |[-> | ->]]; lia.
Qed.
Lemma extend_ok : forall w (sgn : bool) v, size_ok w ->
  (if sgn then bs_sign_extend (bits w v) 32 else bs_zero_extend (bits w v) 32) = Ok (bits 32 (extended w sgn v)).
Proof.
  intros w sgn v S. assert (W : 1 <= w <= 32) by (destruct S as [-> |[-> | ->]]; lia). unfold extended, sext. destruct sgn.
  - rewrite sign_extend_ok by (try (apply wf_bits; lia); cbn; lia). rewrite bits_bw, bits_bv, twos_mod by lia. rewrite bits_wrap. reflexivity.
  - rewrite zero_extend_ok by (try (apply wf_bits; lia); cbn; lia). rewrite bits_bv. reflexivity.
Qed.
(** The part of a load after the address is known. *)
Definition load_rest (offset_addr address : bs) : comp unit :=
  do ms <- attr a_memsize;
  do data <- getc (fun c => read_memory c (NBits address) ms);
  do wback <- attr a_wback;
  do _ <- (if wback then do n <- attr a_n; rset n offset_addr else ret tt);
  do sgn <- attr a_signed;
  do data <- lift (if sgn then bs_sign_extend data 32 else bs_zero_extend data 32);
  do t <- attr a_t;
  do _ <- rset t data;
  pc_next.
Lemma load_rest_ok : forall c i t n wb ms sgn oa ad v, regs_ok c -> mem_ok c -> gpr t -> gpr n -> size_ok ms -> word oa -> word ad ->
  a_t (i_attrs i) = Some t -> a_n (i_attrs i) = Some n -> a_wback (i_attrs i) = Some wb -> a_memsize (i_attrs i) = Some ms ->
  a_signed (i_attrs i) = Some sgn -> reads c ad ms v ->
  exists c', load_rest (bits 32 oa) (bits 32 ad) (mkst c i) = (mkst c' i, Ok tt) /\ c_mem c' = c_mem c /\
  forall k, core k -> reg c' k = advance (set (if wb then set (reg c) n oa else reg c) t (extended ms sgn v)) (i_size i) k.
Proof.
  intros c i t n wb ms sgn oa ad v H HM Gt Gn S Wo Wa At An Aw Am As R. unfold load_rest.
  destruct (reads_ok c ad ms v HM S Wa R) as [E V].
  rewrite (bind_attr _ _ _ _ _ _ _ Am), (bind_getc _ _ _ _ _ _ _ E), (bind_attr _ _ _ _ _ _ _ Aw).
  set (c1 := if wb then W c n oa else c).
  assert (S1 : forall B (f : unit -> comp B), mbind (if wb then do n <- attr a_n; rset n (bits 32 oa) else ret tt) f (mkst c i) = f tt (mkst c1 i)).
  { intros B f. unfold c1. destruct wb; [|reflexivity]. rewrite bind_assoc, (bind_attr _ _ _ _ _ _ _ An). rewrite bind_rset by assumption.
    rewrite bv_word by assumption. reflexivity. }
  rewrite S1. rewrite (bind_attr _ _ _ _ _ _ _ As). rewrite (bind_lift _ _ _ _ _ _ (extend_ok ms sgn v S)). rewrite (bind_attr _ _ _ _ _ _ _ At).
  assert (H1 : regs_ok c1) by (unfold c1; destruct wb; [apply ok_W|]; assumption).
  destruct (finish_plain c1 i t (extended ms sgn v) H1 Gt (extended_word ms sgn v S V)) as (c' & E' & M' & G).
  exists c'. split; [exact E'|]. split; [rewrite M'; unfold c1; destruct wb; rewrite ?mem_W; reflexivity|].
  intros k Ck. rewrite (G k Ck). apply advance_ext; [|assumption]. intros j J. apply set_ext; [|assumption].
  intros j' J'. unfold c1. destruct wb; [apply reg_W|reflexivity].
Qed.
Lemma load_rest_cut : forall c i ms oa ad, mem_ok c -> size_ok ms -> word ad -> a_memsize (i_attrs i) = Some ms -> cut_off c ad ms ->
  load_rest (bits 32 oa) (bits 32 ad) (mkst c i) = (mkst c i, Err IndexError).
Proof.
  intros c i ms oa ad HM S Wa Am X. unfold load_rest. rewrite (bind_attr _ _ _ _ _ _ _ Am).
  rewrite (bind_getc_err _ _ _ _ _ _ _ (cut_fails c ad ms HM S Wa X)). reflexivity.
Qed.
Lemma address_word : forall add idx b o, word b -> word (snd (addresses add idx b o)) /\ word (fst (addresses add idx b o)).
Proof. intros add idx b o B. unfold addresses. destruct idx; cbn [fst snd]; (split; [|apply offset_word]); [apply offset_word|assumption]. Qed.

Ltac sattr := match goal with A : i_attrs ?i = _ |- _ (i_attrs ?i) = _ => rewrite A; reflexivity end.
Lemma address_imm : forall B (f : bs * bs -> comp B) c i l v add n idx, regs_ok c -> gpr n -> word v -> i_attrs i = attributes l ->
  a_imm32 (attributes l) = Some (bits 32 v) -> a_add (attributes l) = Some add -> a_n (attributes l) = Some n -> a_index (attributes l) = Some idx ->
  mbind address_of f (mkst c i) = (let (oa, ad) := addresses add idx (reg c n) v in f (bits 32 oa, bits 32 ad) (mkst c i)).
Proof.
  intros B f c i l v add n idx H Gn Wv A Ei Ea En Ex. unfold address_of.
  rewrite bind_assoc. rewrite (bind_hasattr _ _ _ true) by (rewrite A, Ei; reflexivity). rewrite bind_assoc.
  cbv iota. rewrite (bind_attr _ _ a_imm32 (bits 32 v)) by (rewrite A; assumption).
  apply address_rest; try assumption; rewrite A; assumption.
Qed.
Lemma address_reg : forall B (f : bs * bs -> comp B) c i l m ty amount add n idx, regs_ok c -> gpr n -> gpr m ->
  0 <= amount -> (ty = SR_RRX -> amount = 1) -> i_attrs i = attributes l ->
  a_imm32 (attributes l) = None -> a_m (attributes l) = Some m -> a_shift_t (attributes l) = Some ty -> a_shift_n (attributes l) = Some amount ->
  a_add (attributes l) = Some add -> a_n (attributes l) = Some n -> a_index (attributes l) = Some idx ->
  mbind address_of f (mkst c i) =
  (let (oa, ad) := addresses add idx (reg c n) (fst (shift_result ty 32 (reg c m) amount (flag_C (reg c 16)))) in f (bits 32 oa, bits 32 ad) (mkst c i)).
Proof.
  intros B f c i l m ty amount add n idx H Gn Gm Ha Ht A Ei Em Et En' Ea En Ex. unfold address_of.
  pose proof (word_gpr c m H Gm) as Wm.
  rewrite bind_assoc. rewrite (bind_hasattr _ _ _ false) by (rewrite A, Ei; reflexivity). rewrite bind_assoc.
  cbv iota. rewrite bind_assoc. rewrite (bind_attr _ _ a_m m) by (rewrite A; assumption). rewrite bind_assoc. at_get.
  rewrite bind_assoc. rewrite (bind_attr _ _ a_shift_t ty) by (rewrite A; assumption).
  rewrite bind_assoc. rewrite (bind_attr _ _ a_shift_n amount) by (rewrite A; assumption).
  rewrite bind_assoc. rewrite bind_fget by assumption.
  rewrite (bind_lift _ _ _ _ _ _ (shift_word ty _ amount _ Wm Ha Ht)).
  change (Z.testbit (reg c 16) (flag_bit FC)) with (flag_C (reg c 16)).
  apply address_rest; try assumption; try (rewrite A; assumption). apply shift_result_word; assumption.
Qed.

(*@doc C48 and C56, loads with immediate offset: the extended data, then the write-back, the target
    last; a read running over the end of the region raises and changes nothing. @*)
Lemma C48_load_immediate_proof : forall py c i t n v idx add wb ms sgn, regs_ok c -> mem_ok c -> gpr t -> gpr n -> word v -> size_ok ms ->
  is_insn i Load [T t; N n; Imm v; Idx idx; Add add; Wb wb; Mem ms; Sgn sgn] ->
  loads py c i t n idx add wb ms sgn v.
Proof.
  intros py c i t n v idx add wb ms sgn H HM Gt Gn Wv S [K A]. unfold loads.
  destruct (addresses add idx (reg c n) v) as [oa ad] eqn:E.
  pose proof (address_word add idx (reg c n) v (word_gpr c n H Gn)) as [Wa Wo]. rewrite E in Wa, Wo. cbn [fst snd] in Wa, Wo.
  assert (G : execute py c i = load_rest (bits 32 oa) (bits 32 ad) (mkst c i)).
  { unfold execute. rewrite K. cbn [eval]. unfold eval_Load.
    rewrite (address_imm _ _ c i _ v add n idx H Gn Wv A) by reflexivity. rewrite E. reflexivity. }
  split; [|split].
  - intros u R. unfold runs. rewrite G. apply load_rest_ok; try assumption; sattr.
  - intros X. rewrite G. apply load_rest_cut with (ms := ms); try assumption. sattr.
  - apply reads_or_cut.
Qed.
(*@ex
Example C48_load_immediate_ex :
  let i := an_insn Load [T 0; N 3; Imm 2; Idx true; Add true; Wb false; Mem 16; Sgn true] false in
  cpu_ok ex_state /\
  reg_after Py2 ex_state i 0 = 0xffff80ff.
Proof. split; [exact ex_state_ok|]. vm_compute. repeat split; reflexivity. Qed.
@*)
(*@doc C48 and C56, loads with shifted register offset. @*)
Lemma C48_load_register_proof : forall py c i t n m ty amount idx add wb ms sgn, regs_ok c -> mem_ok c -> gpr t -> gpr n -> gpr m ->
  0 <= amount -> (ty = SR_RRX -> amount = 1) -> size_ok ms ->
  is_insn i Load [T t; N n; M m; ShT ty; ShN amount; Idx idx; Add add; Wb wb; Mem ms; Sgn sgn] ->
  loads py c i t n idx add wb ms sgn (fst (shift_result ty 32 (reg c m) amount (flag_C (reg c 16)))).
Proof.
  intros py c i t n m ty amount idx add wb ms sgn H HM Gt Gn Gm Ha Ht S [K A]. unfold loads.
  set (off := fst (shift_result ty 32 (reg c m) amount (flag_C (reg c 16)))).
  destruct (addresses add idx (reg c n) off) as [oa ad] eqn:E.
  pose proof (address_word add idx (reg c n) off (word_gpr c n H Gn)) as [Wa Wo]. rewrite E in Wa, Wo. cbn [fst snd] in Wa, Wo.
  assert (G : execute py c i = load_rest (bits 32 oa) (bits 32 ad) (mkst c i)).
  { unfold execute. rewrite K. cbn [eval]. unfold eval_Load.
    rewrite (address_reg _ _ c i _ m ty amount add n idx H Gn Gm Ha Ht A) by reflexivity. fold off. rewrite E. reflexivity. }
  split; [|split].
  - intros u R. unfold runs. rewrite G. apply load_rest_ok; try assumption; sattr.
  - intros X. rewrite G. apply load_rest_cut with (ms := ms); try assumption. sattr.
  - apply reads_or_cut.
Qed.
(*@ex
Example C48_load_register_ex :
  let i := an_insn Load [T 0; N 3; M 0; ShT SR_LSR; ShN 2; Idx true; Add true; Wb false; Mem 8; Sgn false] false in
  cpu_ok ex_state /\
  reg_after Py2 ex_state i 0 = 127.
Proof. split; [exact ex_state_ok|]. vm_compute. repeat split; reflexivity. Qed.
@*)
(*@doc C48, C53 and C56, literal loads. @*)
Lemma C48_load_literal_proof : forall py c i t v add ms sgn, regs_ok c -> mem_ok c -> gpr t -> word v -> size_ok ms ->
  is_insn i LoadLiteral [T t; Imm v; Add add; Mem ms; Sgn sgn] ->
  let ad := offset_from add (pc_base (reg c 15)) v in
  (forall u, reads c ad ms u -> runs py c i (advance (set (reg c) t (extended ms sgn u)) (i_size i)) i) /\
  (cut_off c ad ms -> execute py c i = (mkst c i, Err IndexError)) /\
  ((exists u, reads c ad ms u) \/ cut_off c ad ms).
Proof.
  intros py c i t v add ms sgn H HM Gt Wv S [K A] ad.
  assert (Wa : word ad) by apply offset_word.
  split; [|split; [|apply reads_or_cut]].
  - intros u R. destruct (reads_ok c ad ms u HM S Wa R) as [E V]. begin_exec K A. unfold eval_LoadLiteral.
    rewrite base_run by assumption. at_attr. at_attr. rewrite (bind_lift _ _ _ _ _ _ (offset_ok add _ _ (pc_base_word _) Wv)). at_attr.
    rewrite (bind_getc _ _ _ _ _ _ _ E). at_attr. rewrite (bind_lift _ _ _ _ _ _ (extend_ok ms sgn u S)). at_attr.
    apply finish_plain; try assumption. apply extended_word; assumption.
  - intros X. unfold execute. rewrite K. cbn [eval]. unfold eval_LoadLiteral.
    rewrite base_run by assumption. at_attr. at_attr. rewrite (bind_lift _ _ _ _ _ _ (offset_ok add _ _ (pc_base_word _) Wv)). at_attr.
    rewrite (bind_getc_err _ _ _ _ _ _ _ (cut_fails c ad ms HM S Wa X)). reflexivity.
Qed.
(*@ex
Example C48_load_literal_ex :
  let i := an_insn LoadLiteral [T 0; Imm 20; Add false; Mem 32; Sgn false] true in
  cpu_ok ex_state /\
  reg_after Py2 ex_state i 0 = 0x80ff7f01.
Proof. split; [exact ex_state_ok|]. vm_compute. repeat split; reflexivity. Qed.
@*)

Lemma advance_only : forall c0 c i ws, regs_ok c -> wrote c0 c ws -> exists c', pc_next (mkst c i) = (mkst c' i, Ok tt) /\
  wrote c0 c' ws /\ forall k, core k -> reg c' k = advance (reg c) (i_size i) k.
Proof.
  intros c0 c i ws H Ws. destruct (next_only c i H) as (c' & E & M' & G). exists c'. split; [exact E|]. split; [|exact G].
  apply (wrote_mem _ c); assumption.
Qed.
Definition store_rest (address : bs) : comp unit :=
  do t <- attr a_t;
  do v <- rget t;
  do ms <- attr a_memsize;
  do data <- lift (bs_getitem v (KSlice (sl 0 ms)));
  do _ <- setc (fun c => write_memory c (NBits address) (NBits data) ms);
  pc_next.
Lemma store_rest_ok : forall c i t ms ad, regs_ok c -> mem_ok c -> gpr t -> size_ok ms -> word ad ->
  a_t (i_attrs i) = Some t -> a_memsize (i_attrs i) = Some ms ->
  exists c', store_rest (bits 32 ad) (mkst c i) = (mkst c' i, Ok tt) /\ wrote c c' [mkwr ad (reg c t mod 2 ^ ms) ms] /\
  forall k, core k -> reg c' k = advance (reg c) (i_size i) k.
Proof.
  intros c i t ms ad H HM Gt S Wa At Am. unfold store_rest.
  rewrite (bind_attr _ _ _ _ _ _ _ At). at_get. rewrite (bind_attr _ _ _ _ _ _ _ Am).
  rewrite (bind_lift _ _ _ _ _ _ (low_slice (reg c t) ms (word_gpr c t H Gt) ltac:(destruct S as [-> |[-> | ->]]; lia))).
  destruct (write_run c ad (reg c t mod 2 ^ ms) ms HM S Wa) as (c1 & E & R & HM1 & _ & Ws).
  { intros ->. apply Z.mod_pos_bound. reflexivity. }
  rewrite (bind_setc _ _ c1) by (apply E; reflexivity).
  specialize (Ws c [] (wrote_nil c c eq_refl)). cbn [app] in Ws.
  destruct (advance_only c c1 i _ (ok_regs _ _ R H) Ws) as (c' & E' & Ws' & G). exists c'. split; [exact E'|]. split; [exact Ws'|].
  intros k Ck. rewrite (G k Ck). apply advance_ext; [|assumption]. intros; apply reg_regs; assumption.
Qed.
(*@doc C48, stores: the low bits go to the address, nothing else changes but the pc. The
code ignores the write-back attribute, which no encoding sets (C48_no_write_back). @*)
Lemma C48_store_immediate_proof : forall py c i t n v idx add wb ms sgn, regs_ok c -> mem_ok c -> gpr t -> gpr n -> word v -> size_ok ms ->
  is_insn i Store [T t; N n; Imm v; Idx idx; Add add; Wb wb; Mem ms; Sgn sgn] ->
  stores py c i (advance (reg c) (i_size i)) [mkwr (snd (addresses add idx (reg c n) v)) (reg c t mod 2 ^ ms) ms].
Proof.
  intros py c i t n v idx add wb ms sgn H HM Gt Gn Wv S [K A]. unfold stores.
  pose proof (address_word add idx (reg c n) v (word_gpr c n H Gn)) as [Wa Wo].
  destruct (addresses add idx (reg c n) v) as [oa ad] eqn:E. cbn [fst snd] in *.
  assert (G : execute py c i = store_rest (bits 32 ad) (mkst c i)).
  { unfold execute. rewrite K. cbn [eval]. unfold eval_Store.
    rewrite (address_imm _ _ c i _ v add n idx H Gn Wv A) by reflexivity. rewrite E. reflexivity. }
  rewrite G. apply store_rest_ok; try assumption; sattr.
Qed.
(*@ex
Example C48_store_immediate_ex :
  let i := an_insn Store [T 4; N 3; Imm 4; Idx true; Add true; Wb false; Mem 16; Sgn false] false in
  cpu_ok ex_state /\
  mem_after Py2 ex_state i 20 = Some 0x78 /\
  mem_after Py2 ex_state i 21 = Some 0x56 /\
  mem_after Py2 ex_state i 22 = Some 0.
Proof. split; [exact ex_state_ok|]. vm_compute. repeat split; reflexivity. Qed.
@*)
(*@doc C48, stores with shifted register offset. @*)
Lemma C48_store_register_proof : forall py c i t n m ty amount idx add wb ms sgn, regs_ok c -> mem_ok c -> gpr t -> gpr n -> gpr m ->
  0 <= amount -> (ty = SR_RRX -> amount = 1) -> size_ok ms ->
  is_insn i Store [T t; N n; M m; ShT ty; ShN amount; Idx idx; Add add; Wb wb; Mem ms; Sgn sgn] ->
  let off := fst (shift_result ty 32 (reg c m) amount (flag_C (reg c 16))) in
  stores py c i (advance (reg c) (i_size i)) [mkwr (snd (addresses add idx (reg c n) off)) (reg c t mod 2 ^ ms) ms].
Proof.
  intros py c i t n m ty amount idx add wb ms sgn H HM Gt Gn Gm Ha Ht S [K A] off. unfold stores.
  pose proof (address_word add idx (reg c n) off (word_gpr c n H Gn)) as [Wa Wo].
  destruct (addresses add idx (reg c n) off) as [oa ad] eqn:E. cbn [fst snd] in *.
  assert (G : execute py c i = store_rest (bits 32 ad) (mkst c i)).
  { unfold execute. rewrite K. cbn [eval]. unfold eval_Store.
    rewrite (address_reg _ _ c i _ m ty amount add n idx H Gn Gm Ha Ht A) by reflexivity. fold off. rewrite E. reflexivity. }
  rewrite G. apply store_rest_ok; try assumption; sattr.
Qed.
(*@ex
Example C48_store_register_ex :
  let i := an_insn Store [T 4; N 3; M 0; ShT SR_LSL; ShN 1; Idx true; Add true; Wb false; Mem 8; Sgn false] true in
  cpu_ok ex_state /\
  mem_after Py2 ex_state i 30 = Some 0x78 /\
  mem_after Py2 ex_state i 31 = Some 0.
Proof. split; [exact ex_state_ok|]. vm_compute. repeat split; reflexivity. Qed.
@*)
