(** * What is printed determines what is done (C95) *)
From Coq Require Import Lia ZifyBool.
From Verif Require Import BitstringModel SpecBits BitFacts BitOps BitMisc BitText BitThms HelpersModel SpecArm HelpFacts HelpThms UtilFacts CpuModel SpecCpu
  CpuFacts CpuThms InsnModel DecoderModel DecThms TableModel IsaOps IsaBound IsaThms ExecModel SpecExec ExecFacts ExecShape ExecRows SpecIsa SpecWhole SpecPort PortThms DisasmThms FormatModel SpecFormat ExecMiscThms ExecRefThms AsmFacts SpecIsa SpecAsm.
Local Open Scope bool_scope.
Local Open Scope Z_scope.

Definition imm_of (l : list item) : Z := match a_imm32 (attributes l) with Some b => bv b | None => 0 end.
Definition unclear_name (py : pyver) (m : string) : bool :=
  String.eqb m "adr.w" || match py with Py2 => false | Py3 => String.eqb m "movs.w" end.
Definition same_items (k : klass) (l l' : list item) : Prop :=
  attributes l = attributes l' \/ k = ShiftedMoveNegate \/
  k = LoadLiteral /\ exists t size sgn, l = [T t; Add false; Imm 0; Mem size; Sgn sgn] /\ l' = [T t; Add true; Imm 0; Mem size; Sgn sgn].
Definition row_reads (w32 : bool) (r : isa_row) : Prop := forall py w,
  (r_text r = "1101cccciiiiiiii"%string -> field (r_text r) w "c" < 14) ->
  match observed py r w with
  | Gives m k l ops => unclear_name py m = true \/ exists l', reading m (flat_map (tokens_of (imm_of l)) ops) = Some (w32, k, l') /\ same_items k l l'
  | _ => True
  end.
Ltac reads_row := intros py w C; unfold observed, documented; cbn [r_dev row row_dev r_text r_doc] in *;
  first [specialize (C eq_refl) | clear C];
  side_bounds w;
  repeat match goal with |- match (if ?b then _ else _) with _ => _ end => destruct b eqn:? end;
  cbv iota; try exact Logic.I.
Lemma imm_shift_shown : forall y i ty n, imm_shift y i = (ty, n) -> 0 <= y < 4 -> 0 <= i < 32 -> ty <> SR_None /\ (n = 0 -> ty = SR_LSL).
Proof.
  intros y i ty n E Y I. assert (C : y = 0 \/ y = 1 \/ y = 2 \/ y = 3) by lia. unfold imm_shift in E.
  destruct C as [-> | [-> | [-> | -> ]]]; cbn in E; repeat match type of E with context [if ?b then _ else _] => destruct b eqn:? end; injection E as <- <-; split; intros; try discriminate; try reflexivity; exfalso; lia.
Qed.
Ltac hide := repeat match goal with
  | |- context [expand_imm ?x] => let e := fresh "e" in set (e := expand_imm x) in *; clearbody e
  | |- context [twos ?x ?y] => let e := fresh "e" in set (e := twos x y) in *; clearbody e
  | |- context [ones_below ?x ?y] => let e := fresh "e" in set (e := ones_below x y) in *; clearbody e
  | |- context [imm_shift ?x ?y] => let e := fresh "e" in let E := fresh "E" in let ty := fresh "ty" in let n := fresh "n" in destruct (imm_shift x y) as [ty n] eqn:E; cbn [fst snd] in *;
      apply imm_shift_shown in E; [|lia|lia]; destruct E as [E ?E]; destruct ty; [contradiction|..]
  | |- context [V0 (if ?b then _ else _)] => destruct b eqn:?
  | |- context [if ?b then [] else [ShiftRotateOp _ _]] => destruct b eqn:?
  end.
Ltac lookup := match goal with |- context [reading ?m ?ts] =>
  let r := eval cbv [reading reading_in mnemonics List.app List.map String.eqb Ascii.eqb Bool.eqb condition py_range List.nth Z.to_nat Pos.to_nat Pos.iter_op Nat.add Init.Nat.add append seq Z.of_nat Pos.of_succ_nat Pos.succ] in (reading m ts) in
  change (reading m ts) with r end.
Ltac split_name := repeat match goal with
  | |- context [append ?a (if ?b then _ else _)] => destruct b eqn:?
  | |- context [append ?a (match ?p with Py2 => _ | Py3 => _ end)] => destruct p
  end.
Ltac open_row := cbv [flat_map tokens_of imm_of attributes a_imm32 pick bits bv R V V0 RL List.app arith logic shifts rsb mul moves negated negated_w extends reverses
  compares tests tests_w literal access access_w stack multiple jumps jumps_to address plain number barrier cps mrs msr narrow wide sr_eqb option_map].
Lemma bits_mod : forall w v, bits w (v mod 2 ^ w) = bits w v.
Proof. intros w v. unfold bits. rewrite Zmod_mod. reflexivity. Qed.
Ltac zero := repeat match goal with
  | H : (?x =? 0) = true, Z : ?x = 0 -> _ = _ |- _ => apply Z.eqb_eq in H; specialize (Z H); first [discriminate Z | clear Z; rewrite H in *; clear H]
  | H : (?x =? 0) = true |- _ => apply Z.eqb_eq in H; first [rewrite H in *; clear H | let Z0 := fresh in match x with - ?y => assert (Z0 : y = 0) by lia; rewrite Z0 in *; clear Z0 H end]
  end.
Ltac signs := repeat match goal with
  | |- context [Z.abs ?v] => first [replace (Z.abs v) with v by lia | replace (Z.abs v) with (- v) by lia; rewrite ?Z.opp_involutive]
  | |- context [0 <=? ?v] => first [replace (0 <=? v) with true by lia | replace (0 <=? v) with false by lia]
  end.
Ltac same := first [left; reflexivity | left; cbv [attributes pick]; rewrite ?bits_mod; reflexivity
  | right; left; reflexivity | right; right; split; [reflexivity|]; do 3 eexists; split; reflexivity].
Ltac finish_row := first [ left; vm_compute; reflexivity |
  right; lookup; cbn [flat_map List.app tokens_of R V V0 RL]; rewrite ?andb_false_r, ?andb_true_r;
  repeat match goal with |- context [sr_eqb ?a SR_None] => change (sr_eqb a SR_None) with false end; cbv iota;
  repeat match goal with |- context [if ?b then _ else _] => destruct b eqn:?; try (exfalso; lia) end; zero;
  open_row; repeat match goal with |- context [if ?b then _ else _] => destruct b eqn:?; try (exfalso; lia) end; signs;
  (eexists; split; [reflexivity|same]) ].
Ltac split_cond := match goal with
  | B : 0 <= ?x < 16, C : ?x < 14 |- context [condition ?x] =>
    let H := fresh in assert (H : In x [0;1;2;3;4;5;6;7;8;9;10;11;12;13]) by (cbn [In]; lia); clear B C; cbn [In] in H;
    repeat (destruct H as [<-|H]; [|]); [..|destruct H]
  | |- _ => idtac
  end.
Ltac one_read := reads_row; hide; split_name; split_cond; try finish_row.
Lemma reads16 : Forall (row_reads false) isa16.
Proof.
  unfold isa16. repeat (apply Forall_cons; [one_read|]); try apply Forall_nil.
Qed.
Lemma reads32 : Forall (row_reads true) isa32.
Proof.
  unfold isa32. repeat (apply Forall_cons; [one_read|]); try apply Forall_nil.
Qed.
(*--*)
Lemma row_passes : forall t n w r r', row_for t w = Some r -> nth_error t n = Some r' -> ~ In (r_text r) (map r_text (firstn (S n) t)) ->
  fits (r_text r') w && negb (is_other (r_doc r' (field (r_text r') w))) = false.
Proof.
  induction t as [|x t IH]; intros n w r r' E N I; [destruct n; discriminate N|]. cbn [row_for] in E.
  destruct (fits (r_text x) w && negb (is_other (r_doc x (field (r_text x) w)))) eqn:F.
  - injection E as <-. exfalso. apply I. cbn [firstn map]. left. reflexivity.
  - destruct n as [|n]; cbn [nth_error] in N; [injection N as <-; exact F|]. apply (IH n w r r' E N). intros X. apply I. cbn [firstn map]. right. exact X.
Qed.
Lemma cond_small : forall w r, row_for isa16 w = Some r -> r_text r = "1101cccciiiiiiii"%string -> field (r_text r) w "c" < 14.
Proof.
  intros w r E T. destruct (row_for_in _ _ _ E) as (_ & F & _).
  pose proof (row_passes isa16 40 w r _ E eq_refl) as P1. pose proof (row_passes isa16 41 w r _ E eq_refl) as P2.
  rewrite T in *. specialize (P1 ltac:(vm_compute; intuition discriminate)). specialize (P2 ltac:(vm_compute; intuition discriminate)).
  cbn [r_text row r_doc is_other negb] in P1, P2. rewrite andb_true_r in P1, P2.
  cbv -[Z.testbit] in F, P1, P2. cbv -[Z.testbit Z.lt].
  repeat match goal with H : context [Z.testbit w ?k] |- _ => destruct (Z.testbit w k); try discriminate end; repeat match goal with |- context [Z.testbit w ?k] => destruct (Z.testbit w k) end; reflexivity.
Qed.
Lemma not_wide : Forall (fun r => r_text r <> "1101cccciiiiiiii"%string) isa32.
Proof. unfold isa32; repeat (apply Forall_cons; [vm_compute; discriminate|]); apply Forall_nil. Qed.
Local Opaque isa16 isa32.
Lemma decode_found : forall data, bytes data -> (2 <= List.length data)%nat ->
  (forall py a, exists e, decode_bytes py data a = Err e) \/
  exists w (is32 : bool) r, row_for (if is32 then isa32 else isa16) w = Some r /\ forall py a, decode_bytes py data a = decoded is32 w a (observed py r w).
Proof.
  intros data B L. destruct C31_builds_proof as [t E]. unfold decode_bytes. rewrite E. cbn [bind].
  destruct data as [|b0 [|b1 rest]]; cbn [List.length] in L; [lia | lia|].
  inversion B as [|? ? B0 B']; subst. inversion B' as [|? ? B1 B'']; subst.
  destruct (prefix_dec (b1 / 8)) as [P|P].
  - destruct rest as [|b2 [|b3 rest]].
    + left. intros py a. eexists. exact (proj1 (proj2 (proj2 (C27_short_proof _ call_handler py t a b0 b1 B0 B1)) P)).
    + left. intros py a. eexists. exact (proj2 (proj2 (proj2 (C27_short_proof _ call_handler py t a b0 b1 B0 B1)) P) b2).
    + inversion B'' as [|? ? B2 C]; subst. inversion C as [|? ? B3 C']; subst.
      pose proof (fun py a => C31_decode32_proof t py a b0 b1 b2 b3 rest E B0 B1 B2 B3 P) as D. cbv zeta in D.
      set (w := b0 + 256 * b1 + 65536 * b2 + 16777216 * b3) in *.
      destruct (row_for isa32 w) as [r|] eqn:F.
      * right. exists w, true, r. split; [exact F|exact D].
      * left. intros py a. destruct (D py a) as [X|X]; eexists; exact X.
  - pose proof (fun py a => C31_decode16_proof t py a b0 b1 rest E B0 B1 P) as D. set (w := b0 + 256 * b1) in *.
    destruct (row_for isa16 w) as [r|] eqn:F.
    + right. exists w, false, r. split; [exact F|exact D].
    + left. intros py a. destruct (D py a) as [X|X]; eexists; exact X.
Qed.
Lemma from_row : forall py i, from_bytes py i -> exists w (is32 : bool) r m k l ops a, In r (if is32 then isa32 else isa16) /\
  (r_text r = "1101cccciiiiiiii"%string -> field (r_text r) w "c" < 14) /\ observed py r w = Gives m k l ops /\ i = mkinsn m w is32 a k ops (attributes l).
Proof.
  intros py i (data & a & B & E). pose proof (decode_length py data a i E) as L.
  destruct (decode_found data B L) as [X|(w & is32 & r & F & X)].
  - destruct (X py a) as [e X']. rewrite X' in E. discriminate E.
  - rewrite X in E. clear X. destruct (observed py r w) as [m k l ops| | |e] eqn:O; cbn [decoded] in E; try discriminate E. injection E as <-.
    destruct (row_for_in _ _ _ F) as (I & _). exists w, is32, r, m, k, l, ops, a. split; [exact I|]. split; [|split; [exact O|reflexivity]].
    destruct is32; intros T; [exfalso; exact (proj1 (Forall_forall _ _) not_wide r I T)|exact (cond_small w r F T)].
Qed.
Lemma does_alike : forall py c i j, alike i j -> does py c i = does py c j.
Proof.
  intros py c i j A. pose proof (C73_execute_proof py c i j A) as E. unfold does. destruct (execute py c i) as [s r]. rewrite E. reflexivity.
Qed.
Lemma add_zero : forall b, bs_add b (VBits (bits 32 0)) = bs_sub b (VBits (bits 32 0)).
Proof.
  intros b. unfold bs_add, bs_sub, bs_arith. destruct (bs_init (VBits b) None) as [b'|e]; [|reflexivity]. cbn [bind arith_operand].
  change (bv (bits 32 0)) with 0. rewrite Z.add_0_r, Z.sub_0_r. reflexivity.
Qed.
Lemma does_zero : forall py c w t msize sgn,
  does py c (built w LoadLiteral [T t; Add false; Imm 0; Mem msize; Sgn sgn]) = does py c (built w LoadLiteral [T t; Add true; Imm 0; Mem msize; Sgn sgn]).
Proof.
  intros. unfold does, execute. cbn [i_klass built eval]. unfold eval_LoadLiteral.
  cbv [mbind attr getc lift setc rset pc_next size pc_add ret s_cpu s_self built i_attrs attributes a_add a_imm32 a_memsize a_signed a_t].
  destruct (pc_for_instr c) as [pc|e]; [|reflexivity].
  destruct (Align_bits pc 4) as [base|e]; [|reflexivity].
  cbn [pick]. rewrite add_zero.
  destruct (bs_sub base _) as [address|e]; [|reflexivity].
  destruct (read_memory c (NBits address) msize) as [data|e]; [|reflexivity].
  destruct (if sgn then bs_sign_extend data 32 else bs_zero_extend data 32) as [data'|e]; [|reflexivity].
  destruct (r_set c t (NBits data')) as [c'|e]; [|reflexivity].
  unfold i_size. cbn [i_is32]. destruct (get_pc c') as [p|e]; [|reflexivity].
  repeat match goal with |- context [match ?x with Ok _ => _ | Err _ => _ end] => destruct x end; reflexivity.
Qed.
Lemma same_does : forall py c w k l l', same_items k l l' -> does py c (built w k l) = does py c (built w k l').
Proof.
  intros py c w k l l' [E | [-> | (-> & t & size & sgn & -> & ->)]]; [| |apply does_zero].
  2: { unfold does. rewrite !mvn_shifted_fails by reflexivity. reflexivity. }
  unfold built. rewrite E. reflexivity.
Qed.

(*@imports
From Verif Require Import InsnModel ExecModel SpecCpu SpecExec FormatModel SpecArm SpecIsa SpecWhole SpecFormat SpecAsm AsmThms.
Import ListNotations.
Local Open Scope string_scope.
Local Open Scope list_scope.
Local Open Scope Z_scope.
@*)

Lemma clear_reading : forall py i, from_bytes py i -> unclear py i = false ->
  exists l, reading (i_mnemonic i) (tokens i) = Some (i_is32 i, i_klass i, l) /\
    forall c, does py c i = does py c (built (i_is32 i) (i_klass i) l).
Proof.
  intros py i B U. destruct (from_row py i B) as (w & is32 & r & m & k & l & ops & a & I & C & O & ->).
  assert (R : row_reads is32 r).
  { destruct is32; [exact (proj1 (Forall_forall _ _) reads32 r I) | exact (proj1 (Forall_forall _ _) reads16 r I)]. }
  specialize (R py w C). rewrite O in R. unfold unclear in U. cbn [i_mnemonic] in U. destruct R as [R|(l' & R & S)].
  { unfold unclear_name in R. rewrite U in R. discriminate R. }
  exists l'. unfold tokens. cbn [i_mnemonic i_is32 i_klass i_operands i_attrs]. unfold imm_of in R. split; [exact R|].
  intros c. rewrite <- (same_does py c is32 k l l' S). apply does_alike. repeat split.
Qed.
Lemma unclear_shape : forall py i, unclear py i = true -> shape (i_mnemonic i).
Proof.
  intros py i U. unfold unclear in U. assert (X : i_mnemonic i = "adr.w"%string \/ i_mnemonic i = "movs.w"%string).
  { destruct (String.eqb_spec (i_mnemonic i) "adr.w") as [E|_]; [left; exact E|]. right. destruct py; [discriminate U|]. apply String.eqb_eq, U. }
  destruct X as [-> | -> ]; (split; [discriminate|split; [reflexivity|cbn; lia]]).
Qed.
Lemma printed : forall py i, from_bytes py i -> exists text, (forall f, text_of f i = Ok text) /\
  before " " (middle text) = i_mnemonic i /\ understood text = reading (i_mnemonic i) (tokens i).
Proof.
  intros py i B. apply (printed_parts py i B). destruct (unclear py i) eqn:U; [exact (unclear_shape py i U)|].
  destruct (clear_reading py i B U) as (l & R & _). exact (mnemonic_shape _ _ _ R).
Qed.

(*@doc C95: the line printed for a decoded instruction is understood, without looking at the
    columns with its bytes or at the comment: what is understood has the size and the class of
    the instruction, and an object constructed from it does to any machine exactly what the
    instruction does.  The mnemonics in [unclear] are excluded. @*)
Lemma C95_line_partial_proof : forall py i, from_bytes py i -> unclear py i = false ->
  exists text l, (forall f, text_of f i = Ok text) /\ understood text = Some (i_is32 i, i_klass i, l) /\
    forall c, does py c i = does py c (built (i_is32 i) (i_klass i) l).
Proof.
  intros py i B U. destruct (printed py i B) as (text & T & _ & R). destruct (clear_reading py i B U) as (l & L & D).
  exists text, l. split; [exact T|]. split; [rewrite R; exact L|exact D].
Qed.
(*@ex
Example C95_line_partial_ex : exists i l, decode_bytes Py2 [3; 72] 100 = Ok i /\ unclear Py2 i = false /\
  text_of (mkfmt None []) i = Ok "4803         ldr     r0, [pc, #12]   ; 0xc" /\
  understood "4803         ldr     r0, [pc, #12]   ; 0xc" = Some (false, LoadLiteral, l) /\ l = [T 0; Add true; Imm 12; Mem 32; Sgn false] /\
  understood "             bhi     .-6" <> None /\ understood "             bhi     6" = None /\ understood "             foo     r1" = None.
Proof.
  do 2 eexists. split; [vm_compute; reflexivity|]. split; [vm_compute; reflexivity|]. split; [vm_compute; reflexivity|]. split; [vm_compute; reflexivity|].
  split; [reflexivity|]. split; [vm_compute; discriminate|]. split; vm_compute; reflexivity.
Qed.
@*)

(*@doc C95: so two decoded instructions whose lines agree between these columns are of the
    same size and do the same to any machine, wherever they are and whatever their encodings. @*)
Lemma C95_determined_partial_proof : forall py f i j s t, from_bytes py i -> from_bytes py j -> unclear py i = false ->
  text_of f i = Ok s -> text_of f j = Ok t -> middle s = middle t ->
  i_size i = i_size j /\ i_mnemonic i = i_mnemonic j /\ i_klass i = i_klass j /\ forall c, does py c i = does py c j.
Proof.
  intros py f i j s t Bi Bj U S T E.
  destruct (printed py i Bi) as (s' & S' & M & R). rewrite S' in S. injection S as ->.
  destruct (printed py j Bj) as (t' & T' & M' & R'). rewrite T' in T. injection T as ->.
  assert (ME : i_mnemonic i = i_mnemonic j) by (rewrite <- M, <- M', E; reflexivity).
  assert (U' : unclear py j = false) by (unfold unclear in *; rewrite <- ME; exact U).
  destruct (clear_reading py i Bi U) as (l & L & D). destruct (clear_reading py j Bj U') as (l' & L' & D').
  assert (X : understood s = understood t) by (unfold understood; rewrite E; reflexivity).
  rewrite R, R', L, L' in X. injection X as W K X. subst l'. unfold i_size. rewrite W, K. split; [reflexivity|]. split; [exact ME|]. split; [reflexivity|].
  intros c. rewrite D, D', W, K. reflexivity.
Qed.
(*@ex
Example C95_determined_partial_ex : exists i j s t, decode_bytes Py2 [17; 70] 0 = Ok i /\ decode_bytes Py2 [17; 70] 4096 = Ok j /\ i <> j /\ unclear Py2 i = false /\
  text_of (mkfmt None []) i = Ok s /\ text_of (mkfmt None []) j = Ok t /\ middle s = middle t /\ middle s = "mov     r1, r2" /\
  middle "e7fe         b       .+0             ; 0x1000" = middle "e7fe         b       .+0             ; 0x2000".
Proof.
  do 4 eexists. split; [vm_compute; reflexivity|]. split; [vm_compute; reflexivity|]. split; [discriminate|]. split; [vm_compute; reflexivity|].
  split; [vm_compute; reflexivity|]. split; [vm_compute; reflexivity|]. split; [vm_compute; reflexivity|]. split; vm_compute; reflexivity.
Qed.
@*)

(*@doc C95 does not hold for adr.w: the same is printed for a label before and after the
    instruction; nor on Python 3 for mov.w with and without setting the flags. @*)
Lemma C95_refuted_proof :
  (forall py, exists i j s t, from_bytes py i /\ from_bytes py j /\ (forall f, text_of f i = Ok s) /\ (forall f, text_of f j = Ok t) /\
    middle s = "adr.w   r1, .+8"%string /\ middle t = middle s /\
    reg_after py ex_state i 1 <> reg_after py ex_state j 1) /\
  exists i j s t, from_bytes Py3 i /\ from_bytes Py3 j /\ (forall f, text_of f i = Ok s) /\ (forall f, text_of f j = Ok t) /\
    middle s = "movs.w  r1, #0"%string /\ middle t = middle s /\
    reg_after Py3 ex_state i 16 <> reg_after Py3 ex_state j 16.
Proof.
  split.
  - intros py. assert (X : exists i j s t, decode_bytes py [15; 242; 4; 1] 0 = Ok i /\ decode_bytes py [175; 242; 4; 1] 0 = Ok j /\
      (forall f, text_of f i = Ok s) /\ (forall f, text_of f j = Ok t) /\ middle s = "adr.w   r1, .+8"%string /\ middle t = middle s /\
      reg_after py ex_state i 1 <> reg_after py ex_state j 1).
    { destruct py; do 4 eexists; (split; [vm_compute; reflexivity|]); (split; [vm_compute; reflexivity|]); (split; [intros f; vm_compute; reflexivity|]); (split; [intros f; vm_compute; reflexivity|]);
      (split; [vm_compute; reflexivity|]); (split; [vm_compute; reflexivity|]); vm_compute; discriminate. }
    destruct X as (i & j & s & t & D & D' & X). exists i, j, s, t. split; [exists [15; 242; 4; 1], 0; split; [bytes_tac|exact D]|]. split; [exists [175; 242; 4; 1], 0; split; [bytes_tac|exact D']|]. exact X.
  - assert (X : exists i j s t, decode_bytes Py3 [79; 240; 0; 1] 0 = Ok i /\ decode_bytes Py3 [95; 240; 0; 1] 0 = Ok j /\
      (forall f, text_of f i = Ok s) /\ (forall f, text_of f j = Ok t) /\ middle s = "movs.w  r1, #0"%string /\ middle t = middle s /\
      reg_after Py3 ex_state i 16 <> reg_after Py3 ex_state j 16).
    { do 4 eexists; (split; [vm_compute; reflexivity|]); (split; [vm_compute; reflexivity|]); (split; [intros f; vm_compute; reflexivity|]); (split; [intros f; vm_compute; reflexivity|]);
      (split; [vm_compute; reflexivity|]); (split; [vm_compute; reflexivity|]); vm_compute; discriminate. }
    destruct X as (i & j & s & t & D & D' & X). exists i, j, s, t. split; [exists [79; 240; 0; 1], 0; split; [bytes_tac|exact D]|]. split; [exists [95; 240; 0; 1], 0; split; [bytes_tac|exact D']|]. exact X.
Qed.
