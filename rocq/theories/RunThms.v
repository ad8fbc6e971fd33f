(** * Proofs of statements about several instructions *)
From Coq Require Import Lia ZifyBool.
From Verif Require Import SimModel BitstringModel SpecBits BitFacts BitText SpecArm UtilFacts SpecCpu CpuFacts CpuThms TableModel IsaThms ExecModel SpecExec ExecFacts ExecMiscThms ExecMemThms ExecMultiThms ExecShape ExecRows ExecWholeThms
  SpecWhole SpecDisasm SpecFormat ExecRefThms SpecSim SpecConsole SpecExec SpecIsa SpecRun SimFacts SimThms ConsoleThms.
Local Open Scope string_scope.
Local Open Scope list_scope.
Local Open Scope Z_scope.
Local Open Scope bool_scope.
(*@imports From Coq Require Import Lia.
From Verif Require Import SimModel SpecBits SpecArm SpecCpu TableModel ExecModel ExecFacts SpecWhole SpecDisasm SpecFormat ExecRefThms SpecSim SpecConsole SpecExec SpecIsa SpecRun RunThms.
Local Open Scope string_scope.
Local Open Scope list_scope.
Local Open Scope Z_scope.
Local Open Scope bool_scope. @*)

(** ** Stepping *)
Lemma glue_append : forall a b, glue (a ++ b) = glue a +++ glue b.
Proof.
  induction a as [|x a IH]; intros b; [reflexivity|]. cbn [app]. unfold glue in *. cbn [fold_right]. rewrite IH.
  induction x as [|y x IHx]; [reflexivity|]. cbn. now rewrite IHx.
Qed.
Lemma step_command_step : forall r s, step_command r -> exists args, dispatch r s = handle_step args s.
Proof.
  intros r s (w & args & SP & I). exists args. apply (C70_commands_proof w args r s SP); [|exact I].
  intros [x ->]. destruct I as [I|[I|[]]]; discriminate I.
Qed.
Lemma one_step : forall s r line lines c', ready s -> cpu_ok (sim_cpu s) -> step_command r -> runs_on (sim_cpu s) (line :: lines) c' ->
  exists s1 l, process_command r s = (s1, Done tt) /\ ready s1 /\ cpu_ok (sim_cpu s1) /\ sim_out s1 = sim_out s ++ map Txt l /\ glue l = line /\ runs_on (sim_cpu s1) lines c'.
Proof.
  intros s r line lines c' R OK SC RO. inversion RO as [|c code i st text ls c2 RB D Q EX TX RN]; subst.
  destruct (step_command_step r s SC) as [args DI].
  destruct (C63_step_partial_proof s args code i R OK RB D Q) as (s1 & text' & l & H & C1 & R1 & O1 & T1 & G1).
  rewrite TX in T1. injection T1 as <-. rewrite EX in H, C1. cbn [fst snd] in H, C1.
  exists s1, l. unfold process_command. rewrite DI, H. split; [reflexivity|]. split; [exact R1|]. split.
  { rewrite C1. pose proof (block_is_bytes _ _ _ _ (proj2 (proj2 OK)) RB) as B.
    pose proof (C40_execute_proof Py2 (sim_cpu s) i OK (ex_intro _ code (ex_intro _ _ (conj B D)))) as [K _]. rewrite EX in K. exact K. }
  split; [exact O1|]. split; [exact G1|]. rewrite C1. exact RN.
Qed.

(*@doc C83: stepping through a program in the console runs the machine: if the machine can
run on from [c] to [c'] over n instructions, then after n lines, each of them a step command
or blank after one, the machine is in [c'], and the output has grown by the lines of the
n instructions, in order. @*)
Lemma C83_stepping_proof : forall lines c', forall s, runs_on (sim_cpu s) lines c' -> ready s -> cpu_ok (sim_cpu s) ->
  forall typed last, List.length typed = List.length lines -> Forall (fun t => blank t \/ step_line t) typed ->
  (step_command last \/ match typed with t :: _ => step_line t | [] => True end) ->
  exists s' l, console_run last typed s = (s', Done tt) /\ sim_cpu s' = c' /\ sim_out s' = sim_out s ++ map Txt l /\ glue l = glue lines +++ newline.
Proof.
  induction lines as [|line lines IH]; intros c' s RO R OK typed last L F H.
  - destruct typed; [|discriminate L]. inversion RO; subst. eexists _, [newline]. split; [reflexivity|]. split; [reflexivity|]. split; reflexivity.
  - destruct typed as [|t typed]; [discriminate L|]. injection L as L. inversion F as [|? ? Ft F']; subst.
    assert (K : exists r, step_command r /\ console_run last (t :: typed) s = (process_command r ;; console_run r typed) s).
    { destruct (C67_lines_proof last s) as (_ & LT & LB & _). 
      assert (SL : step_line t -> exists r, step_command r /\ console_run last (t :: typed) s = (process_command r ;; console_run r typed) s).
      { intros (r & T & N & SC). exists r. split; [exact SC|]. rewrite (LT t r typed T). unfold sbind. now rewrite one_command. }
      destruct Ft as [B|S]; [|exact (SL S)]. destruct H as [H|H]; [|exact (SL H)]. exists last. split; [exact H|].
      rewrite (LB t typed B). destruct (String.eqb_spec last "") as [->|]; [|reflexivity]. exfalso.
      destruct H as (w & args & SP & _). apply C71_words_proof in SP. discriminate SP. }
    destruct K as (r & SC & E). destruct (one_step s r line lines c' R OK SC RO) as (s1 & l1 & P & R1 & OK1 & O1 & G1 & RN).
    destruct (IH c' s1 RN R1 OK1 typed r L F' (or_introl SC)) as (s2 & l2 & E2 & C2 & O2 & G2).
    exists s2, (l1 ++ l2). rewrite E. unfold sbind. rewrite P, E2. split; [reflexivity|]. split; [exact C2|].
    split; [rewrite O2, O1, map_app, app_assoc; reflexivity|]. rewrite glue_append, G1, G2. 
    change (glue (line :: lines)) with (line +++ glue lines). clear. induction line as [|x line IHl]; [reflexivity|]. cbn. now rewrite IHl.
Qed.
(*@ex
Example C83_stepping_ex :
  (exists c', runs_on ex_machine [the_line "0x00000008:  2001         movs    r0, #1"; the_line "0x0000000a:  1c40         adds    r0, r0, #1"] c' /\ reg c' 0 = 2) /\
  match DECODER_TREE with
  | Ok t => let s := fst (sim_start t ex_program) in reg (sim_cpu (fst (console_run "" ["step"; ""] s))) 0 = 2
  | Err _ => False
  end.
Proof.
  split; [|vm_compute; reflexivity]. eexists. split.
  - match goal with |- runs_on ?c (_ :: ?ls) _ => replace (the_line "0x00000008:  2001         movs    r0, #1" :: ls) with (the_line ("0x" +++ hexn 8 (even_pc c) +++ ":  " +++ "2001         movs    r0, #1") :: ls) by (vm_compute; reflexivity) end.
    eapply runs_next; [vm_compute; reflexivity|vm_compute; reflexivity|right; vm_compute; exact I|vm_compute; reflexivity|vm_compute; reflexivity|].
    match goal with |- runs_on ?c (_ :: ?ls) _ => replace (the_line "0x0000000a:  1c40         adds    r0, r0, #1" :: ls) with (the_line ("0x" +++ hexn 8 (even_pc c) +++ ":  " +++ "1c40         adds    r0, r0, #1") :: ls) by (vm_compute; reflexivity) end.
    eapply runs_next; [vm_compute; reflexivity|vm_compute; reflexivity|right; vm_compute; exact I|vm_compute; reflexivity|vm_compute; reflexivity|].
    apply runs_stop.
  - vm_compute. reflexivity.
Qed.
@*)

(** ** Call and return *)
Definition row_call (r : isa_row) : Prop := forall py w,
  match observed py r w with
  | Gives mn Branch l ops =>
      (exists m, mn = "blx" /\ l = [M m; Link true; Cond 15; Delta (-2)] /\ ops = [R m] /\ gpr m) \/
      (exists m, mn = "bx" /\ l = [M m; Link false; Cond 15; Delta 0] /\ ops = [R m] /\ gpr m) \/
      (exists v off, mn = "bl" /\ l = [Link true; Cond 15; Delta 0; Imm v] /\ word v /\ ops = [LabelOp off]) \/
      ((mn <> "bx" /\ mn <> "bl" /\ mn <> "blx") /\ exists k v, l = [Link false; Cond k; Delta 0; Imm v])
  | Gives mn _ _ _ => mn <> "bx" /\ mn <> "bl" /\ mn <> "blx"
  | _ => True
  end.
Lemma no_bx : forall x, "b" +++ condition x <> "bx" /\ "b" +++ condition x <> "bl" /\ "b" +++ condition x <> "blx".
Proof.
  intros x. split; [|split]; intros H; injection H as H; unfold condition in H; revert H; generalize (Z.to_nat x); intros n;
  do 16 (destruct n as [|n]; [discriminate|]); destruct n; discriminate.
Qed.
Lemma rows_call : Forall row_call (isa16 ++ isa32).
Proof.
  apply Forall_app. split; unfold isa16, isa32; repeat (apply Forall_cons; [
    intros py w; unfold observed, documented; cbn [r_dev row row_dev r_text r_doc]; side_bounds w;
    repeat match goal with |- match (if ?b then _ else _) with _ => _ end => destruct b eqn:? end; cbv iota; try exact Logic.I;
    first [split; [discriminate|split; discriminate]
     | left; eexists; repeat (split; [reflexivity|]); side
     | right; left; eexists; repeat (split; [reflexivity|]); side
     | right; right; left; do 2 eexists; split; [reflexivity|]; split; [reflexivity|]; split; [side|reflexivity]
     | right; right; right; split; [|do 2 eexists; reflexivity]; first [apply no_bx | split; [discriminate|split; discriminate]]
     | fail 2 "row" ]|]);
  apply Forall_nil.
Qed.
Lemma branch_decoded : forall py i, from_bytes py i -> exists mn l, i_mnemonic i = mn /\ i_attrs i = attributes l /\
  match i_klass i with
  | Branch => (exists m, mn = "blx" /\ l = [M m; Link true; Cond 15; Delta (-2)] /\ i_operands i = [R m] /\ gpr m) \/
      (exists m, mn = "bx" /\ l = [M m; Link false; Cond 15; Delta 0] /\ i_operands i = [R m] /\ gpr m) \/
      (exists v off, mn = "bl" /\ l = [Link true; Cond 15; Delta 0; Imm v] /\ word v /\ i_operands i = [LabelOp off]) \/
      ((mn <> "bx" /\ mn <> "bl" /\ mn <> "blx") /\ exists k v, l = [Link false; Cond k; Delta 0; Imm v])
  | _ => mn <> "bx" /\ mn <> "bl" /\ mn <> "blx"
  end.
Proof.
  intros py i (data & a & B & E).
  assert (L : (2 <= List.length data)%nat) by (destruct (C30_bytes_proof py data a i B E) as (_ & _ & S & S'); destruct (in_dec Z.eq_dec _ _) in S; lia).
  destruct (decode_cases py data a B L) as [X|[X|[w [is32 [r [I [F [O [X D]]]]]]]]]; rewrite X in E; try discriminate E.
  pose proof (proj1 (Forall_forall _ _) rows_call r I py w) as S.
  destruct (observed py r w) as [m k l ops| | |e]; cbn [decoded] in E; try discriminate E. injection E as <-.
  exists m, l. cbn [i_mnemonic i_klass i_attrs i_operands]. split; [reflexivity|]. split; [reflexivity|exact S].
Qed.
Lemma cond_always : forall x, holds_in 15 x = true.
Proof. reflexivity. Qed.
Lemma lor_1 : forall v, 0 <= v -> Z.lor v 1 - Z.lor v 1 mod 2 = v - v mod 2.
Proof.
  intros v V. assert (T : Z.lor v 1 = 2 * (v / 2) + 1).
  { apply Z.bits_inj'. intros k K. rewrite Z.lor_spec. destruct (Z.eq_dec k 0) as [->|NK].
    - rewrite Z.testbit_odd_0. change (Z.testbit 1 0) with true. apply orb_true_r.
    - replace k with (Z.succ (k - 1)) by lia. rewrite Z.testbit_odd_succ by lia. rewrite <- Z.div2_div, Z.div2_spec, Z.shiftr_spec by lia.
      replace (k - 1 + 1) with (Z.succ (k - 1)) by lia. change (Z.testbit 1 (Z.succ (k - 1))) with (Z.testbit (2 * 0 + 1) (Z.succ (k - 1))).
      rewrite Z.testbit_odd_succ, Z.bits_0 by lia. apply orb_false_r. }
  rewrite T. pose proof (Z.div_mod v 2 ltac:(lia)). replace (2 * (v / 2) + 1) with (1 + (v / 2) * 2) by lia. rewrite Z.mod_add by lia. change (1 mod 2) with 1. lia.
Qed.

(*@doc C84: a call returns: bl and blx leave in lr the address of the instruction behind them,
with bit 0 set; whenever lr holds this again, bx lr goes there and changes nothing else.
(Where they go: for blx stated here, except blx lr, see C47_blx_lr_refuted; for bl in C47.) @*)
Lemma C84_call_return_proof : forall py c i, regs_ok c -> from_bytes py i -> i_mnemonic i = "bl" \/ i_mnemonic i = "blx" ->
  let next := (reg c 15 + (if String.eqb (i_mnemonic i) "bl" then 4 else 2)) mod 2 ^ 32 in
  exists c1, execute py c i = (mkst c1 i, Ok tt) /\ c_mem c1 = c_mem c /\ reg c1 14 = Z.lor next 1 /\
    (forall k, core k -> k <> 14 -> k <> 15 -> reg c1 k = reg c k) /\
    (forall m, i_operands i = [R m] -> m <> 14 -> reg c1 15 = reg c m - reg c m mod 2) /\
  forall c2 j, regs_ok c2 -> reg c2 14 = reg c1 14 -> from_bytes py j -> i_mnemonic j = "bx" -> i_operands j = [R 14] ->
  exists c3, execute py c2 j = (mkst c3 j, Ok tt) /\ c_mem c3 = c_mem c2 /\ reg c3 15 = next - next mod 2 /\ forall k, core k -> k <> 15 -> reg c3 k = reg c2 k.
Proof.
  intros py c i RO FB MN next.
  assert (BX : forall c2 j, regs_ok c2 -> reg c2 14 = Z.lor next 1 -> from_bytes py j -> i_mnemonic j = "bx" -> i_operands j = [R 14] ->
    exists c3, execute py c2 j = (mkst c3 j, Ok tt) /\ c_mem c3 = c_mem c2 /\ reg c3 15 = next - next mod 2 /\ forall k, core k -> k <> 15 -> reg c3 k = reg c2 k).
  { intros c2 j R2 E14 FJ MJ OJ. destruct (branch_decoded py j FJ) as (mn & l & <- & A & S). rewrite MJ in S.
    destruct (i_klass j) eqn:K; try (destruct S as [S _]; congruence).
    destruct S as [(m & S & _)|[(m & _ & -> & O & G)|[(v & off & S & _)|[[S _] _]]]]; try congruence.
    assert (m = 14) as -> by (rewrite O in OJ; now injection OJ).
    destruct (C47_register_proof py c2 j 14 false 15 0 R2 G ltac:(lia) (conj K A)) as (c3 & E & ME & F). cbv zeta in F.
    exists c3. split; [exact E|]. split; [exact ME|]. change (linked false (reg c2) 0) with (reg c2) in F. split.
    - rewrite (F 15) by (unfold core; lia). rewrite cond_always. change (set ?f 15 ?v 15) with v. rewrite E14. apply lor_1. unfold next. apply Z.mod_pos_bound. reflexivity.
    - intros k C N. rewrite (F k C), cond_always. unfold set. replace (written 15 k) with false; [reflexivity|]. symmetry. unfold written. lia. }
  destruct (branch_decoded py i FB) as (mn & l & EM & A & S). rewrite EM in *. destruct (i_klass i) eqn:K; try (exfalso; destruct S as (_ & S1 & S2); destruct MN as [MN|MN]; congruence).
  destruct S as [(m & -> & -> & O & G)|[(m & -> & _)|[(v & off & -> & -> & W & O)|[(_ & S1 & S2) _]]]].
  - destruct (C47_register_proof py c i m true 15 (-2) RO G ltac:(lia) (conj K A)) as (c1 & E & ME & F). cbv zeta in F.
    assert (NE : next_pc (reg c) (-2) = next) by (unfold next_pc, wrap, next; rewrite EM; apply (f_equal (fun z => z mod 2 ^ 32)); match goal with |- _ = _ + ?z => let y := eval vm_compute in z in change z with y end; lia).
    assert (E14 : reg c1 14 = Z.lor next 1).
    { rewrite (F 14) by (unfold core; lia). rewrite cond_always. unfold linked. rewrite NE. reflexivity. }
    exists c1. split; [exact E|]. split; [exact ME|]. split; [exact E14|]. split; [|split].
    + intros k C N1 N2. rewrite (F k C), cond_always. unfold set at 1. replace (written 15 k) with false by (symmetry; unfold written; lia).
      unfold linked, set. replace (written 14 k) with false by (symmetry; unfold written; lia). reflexivity.
    + intros m' Om N14. assert (m' = m) as -> by (rewrite O in Om; now injection Om). rewrite (F 15) by (unfold core; lia). rewrite cond_always. change (set ?f 15 ?v 15) with v.
      unfold linked, set. unfold gpr in G. replace (written 14 m) with false by (symmetry; unfold written; lia). reflexivity.
    + intros c2 j R2 E2. rewrite E14 in E2. now apply BX.
  - exfalso. destruct MN as [MN|MN]; discriminate MN.
  - destruct (C47_immediate_proof py c i v true 15 0 RO W ltac:(lia) (conj K A)) as (c1 & E & ME & F).
    assert (NE : next_pc (reg c) 0 = next) by (unfold next_pc, wrap, next; rewrite EM; apply (f_equal (fun z => z mod 2 ^ 32)); match goal with |- _ = _ + ?z => let y := eval vm_compute in z in change z with y end; lia).
    assert (E14 : reg c1 14 = Z.lor next 1).
    { rewrite (F 14) by (unfold core; lia). rewrite cond_always. unfold linked. rewrite NE. reflexivity. }
    exists c1. split; [exact E|]. split; [exact ME|]. split; [exact E14|]. split; [|split].
    + intros k C N1 N2. rewrite (F k C), cond_always. unfold set at 1. replace (written 15 k) with false by (symmetry; unfold written; lia).
      unfold linked, set. replace (written 14 k) with false by (symmetry; unfold written; lia). reflexivity.
    + intros m' Om. rewrite O in Om. discriminate Om.
    + intros c2 j R2 E2. rewrite E14 in E2. now apply BX.
  - exfalso. destruct MN as [MN|MN]; congruence.
Qed.
(*@ex
(* blx r3 at 16, and bx lr. *)
Example C84_call_return_ex : exists i j, decode_bytes Py2 [152; 71] 16 = Ok i /\ i_mnemonic i = "blx" /\ decode_bytes Py2 [112; 71] 64 = Ok j /\ i_mnemonic j = "bx" /\ i_operands j = [R 14] /\
  let c := ex_with [(3, 65); (15, 16)] in regs_ok c /\
  let c1 := s_cpu (fst (execute Py2 c i)) in reg c1 14 = 19 /\ reg c1 15 = 64 /\ reg (s_cpu (fst (execute Py2 c1 j))) 15 = 18.
Proof.
  eexists. eexists. split; [vm_compute; reflexivity|]. split; [reflexivity|]. split; [vm_compute; reflexivity|]. split; [reflexivity|]. split; [reflexivity|].
  split; [apply (ex_with_ok [(3, 65); (15, 16)]); repeat constructor; discriminate|]. split; [vm_compute; reflexivity|]. split; vm_compute; reflexivity.
Qed.
@*)

(** ** A store and a load *)
Lemma le1 : forall v, 0 <= v < 2 ^ 8 -> le_number [(v / 256 ^ 0) mod 256] = v.
Proof. intros v V. change (2 ^ 8) with 256 in V. cbn [le_number]. change (256 ^ 0) with 1. rewrite Z.div_1_r, Z.mod_small by lia. lia. Qed.
Lemma le2 : forall v, 0 <= v < 2 ^ 16 -> le_number [(v / 256 ^ 0) mod 256; (v / 256 ^ 1) mod 256] = v.
Proof.
  intros v V. change (2 ^ 16) with 65536 in V. cbn [le_number]. change (256 ^ 0) with 1. change (256 ^ 1) with 256. rewrite Z.div_1_r.
  pose proof (Z.div_mod v 256 ltac:(lia)). assert (0 <= v / 256 < 256) by (split; [apply Z.div_pos; lia|apply Z.div_lt_upper_bound; lia]).
  rewrite (Z.mod_small (v / 256) 256) by lia. lia.
Qed.
Lemma stored_reads : forall c c1 a v ms, size_ok ms -> 0 <= v < 2 ^ ms -> in_one_region c a (ms / 8) -> wrote c c1 [mkwr a v ms] -> reads c1 a ms v.
Proof.
  intros c c1 a v ms S V (A & j & m & L) [Ly Ce].
  assert (P : 1 <= ms / 8) by (destruct S as [-> |[-> | ->]]; vm_compute; discriminate).
  pose proof (L 0 ltac:(lia)) as L0. rewrite Z.add_0_r in L0.
  destruct (located_layout c _ _ _ L0 c1 Ly) as (m1 & L1 & S1 & _).
  assert (B : forall b, 0 <= b < ms / 8 -> cell c1 j (a - m_start m1 + b) = Some ((v / 256 ^ b) mod 256)).
  { intros b Hb. apply Ce. rewrite S1. apply (last_hit c j _ [] (mkwr a v ms)). exists m. cbn [w_addr w_size w_val].
    split; [assumption|]. cbv zeta. split; [lia|]. do 3 f_equal. lia. }
  destruct S as [-> |[-> | ->]]; cbn in P.
  - apply (reads_mapped c1 _ 8 v j m1 [(v / 256 ^ 0) mod 256]); [assumption| |symmetry; now apply le1].
    change (Z.to_nat (8 / 8)) with 1%nat. cbn [take_cells]. pose proof (B 0 ltac:(change (8 / 8) with 1; lia)) as B0. rewrite Z.add_0_r in B0. rewrite B0. reflexivity.
  - apply (reads_mapped c1 _ 16 v j m1 [(v / 256 ^ 0) mod 256; (v / 256 ^ 1) mod 256]); [assumption| |symmetry; now apply le2].
    change (Z.to_nat (16 / 8)) with 2%nat. cbn [take_cells]. pose proof (B 0 ltac:(change (16 / 8) with 2; lia)) as B0. pose proof (B 1 ltac:(change (16 / 8) with 2; lia)) as B1.
    rewrite Z.add_0_r in B0. rewrite B0, B1. reflexivity.
  - apply (reads_mapped c1 _ 32 v j m1 [(v / 256 ^ 0) mod 256; (v / 256 ^ 1) mod 256; (v / 256 ^ 2) mod 256; (v / 256 ^ 3) mod 256]); [assumption| |symmetry; now apply four_bytes].
    change (32 / 8) with 4 in *. change (Z.to_nat 4) with 4%nat. cbn [take_cells].
    set (o := a - m_start m1) in *. replace (o + 1 + 1 + 1) with (o + 3) by lia. replace (o + 1 + 1) with (o + 2) by lia.
    pose proof (B 0 ltac:(lia)) as B0. pose proof (B 1 ltac:(lia)) as B1. pose proof (B 2 ltac:(lia)) as B2. pose proof (B 3 ltac:(lia)) as B3.
    rewrite Z.add_0_r in B0. rewrite B0, B1, B2, B3. reflexivity.
Qed.
Lemma store_runs : forall py c i t ms sgn a, cpu_ok c -> gpr t -> size_ok ms -> transfers c Store i t ms sgn a ->
  stores py c i (advance (reg c) (i_size i)) [mkwr a (reg c t mod 2 ^ ms) ms].
Proof.
  intros py c i t ms sgn a (RO & _ & MO) G S [n v add Gn W I|n m ty amount add Gn Gm A0 RX I].
  - exact (C48_store_immediate_proof py c i t n v true add false ms sgn RO MO G Gn W S I).
  - exact (C48_store_register_proof py c i t n m ty amount true add false ms sgn RO MO G Gn Gm A0 RX S I).
Qed.
Lemma load_runs : forall py c i t ms sgn a v, regs_ok c -> mem_ok c -> gpr t -> size_ok ms -> transfers c Load i t ms sgn a -> reads c a ms v ->
  runs py c i (advance (set (reg c) t (extended ms sgn v)) (i_size i)) i.
Proof.
  intros py c i t ms sgn a v RO MO G S [n w add Gn W I|n m ty amount add Gn Gm A0 RX I] R.
  - exact (proj1 (C48_load_immediate_proof py c i t n w true add false ms sgn RO MO G Gn W S I) v R).
  - exact (proj1 (C48_load_register_proof py c i t n m ty amount true add false ms sgn RO MO G Gn Gm A0 RX S I) v R).
Qed.

(*@doc C85: what a store has written, a load from the same address, however it is computed,
gets back (extended to a word), whatever has happened to the registers in between. @*)
Lemma C85_store_load_proof : forall py c i t ms s a, cpu_ok c -> gpr t -> size_ok ms -> transfers c Store i t ms s a -> in_one_region c a (ms / 8) ->
  exists c1, execute py c i = (mkst c1 i, Ok tt) /\
  forall c2 j t2 sgn, regs_ok c2 -> c_mem c2 = c_mem c1 -> gpr t2 -> transfers c2 Load j t2 ms sgn a ->
  runs py c2 j (advance (set (reg c2) t2 (extended ms sgn (reg c t mod 2 ^ ms))) (i_size j)) j.
Proof.
  intros py c i t ms s a OK G S T IR. destruct (store_runs py c i t ms s a OK G S T) as (c1 & E & W & _).
  exists c1. split; [exact E|]. intros c2 j t2 sgn R2 M2 G2 T2.
  apply (load_runs py c2 j t2 ms sgn a); [exact R2| |exact G2|exact S|exact T2|].
  - apply (mem_ok_mem c1 c2 M2). apply (wrote_ok _ _ _ (proj2 (proj2 OK)) W).
  - apply (reads_mem c1 c2 _ _ _ M2). apply (stored_reads c c1); try assumption.
    apply Z.mod_pos_bound. destruct S as [-> |[-> | ->]]; reflexivity.
Qed.
(*@ex
(* strh r4, [r3, #4]; ldrsh r0, [r3, #4]. *)
Example C85_store_load_ex : let i := an_insn Store [T 4; N 3; Imm 4; Idx true; Add true; Wb false; Mem 16; Sgn false] false in
  let j := an_insn Load [T 0; N 3; Imm 4; Idx true; Add true; Wb false; Mem 16; Sgn true] false in
  cpu_ok ex_state /\ transfers ex_state Store i 4 16 false 20 /\ in_one_region ex_state 20 2 /\ reg ex_state 4 = 0x12345678 /\
  let c1 := s_cpu (fst (execute Py2 ex_state i)) in transfers c1 Load j 0 16 true 20 /\ reg (s_cpu (fst (execute Py2 c1 j))) 0 = 0x5678.
Proof.
  intros i j. split; [exact ex_state_ok|]. split; [|split; [|split; [vm_compute; reflexivity|intros c1; split; [|vm_compute; reflexivity]]]].
  - apply (transfers_imm ex_state Store i 4 16 false 3 4 true); [split; discriminate|split; [discriminate|reflexivity]|split; reflexivity].
  - split; [discriminate|].
    exists 0%nat, (mkmem 0 63 (List.map (fun k => match cell ex_state 0 (Z.of_nat k) with Some b => b | None => 0 end) (List.seq 0 64))).
    intros o O. split; [vm_compute; reflexivity|]. split; [unfold in_region; cbn [m_start m_end]; lia|]. intros k m K. inversion K.
  - apply (transfers_imm c1 Load j 0 16 true 3 4 true); [split; discriminate|split; [discriminate|reflexivity]|split; reflexivity].
Qed.
@*)

Lemma take_kept : forall c c1 j n o l, (forall x, o <= x < o + Z.of_nat n -> forall b, cell c j x = Some b -> cell c1 j x = Some b) ->
  take_cells c j o n = Some l -> take_cells c1 j o n = Some l.
Proof.
  intros c c1 j n. induction n as [|n IH]; intros o l K T; [exact T|]. cbn [take_cells] in *.
  destruct (cell c j o) as [b|] eqn:B; [|discriminate T]. rewrite (K o ltac:(lia) b B).
  destruct (take_cells c j (o + 1) n) as [l'|] eqn:T'; [|discriminate T]. rewrite (IH (o + 1) l'); [exact T| |exact T'].
  intros x X. apply K. lia.
Qed.
Lemma reads_elsewhere : forall c c1 a v ms b mb u, wrote c c1 [mkwr a v ms] -> 0 <= mb / 8 -> b + mb / 8 <= a \/ a + ms / 8 <= b -> reads c b mb u -> reads c1 b mb u.
Proof.
  intros c c1 a v ms b mb u [Ly Ce] P D [j m l L T ->|U ->].
  - destruct (located_layout c _ _ _ L c1 Ly) as (m1 & L1 & S1 & _).
    apply (reads_mapped c1 _ _ _ j m1 l L1); [|reflexivity]. rewrite S1. revert T. apply take_kept.
    intros x X y Y. apply Ce. apply (last_miss c j x [] (mkwr a v ms)); [|rewrite <- Y; apply last_init].
    intros z (m' & L' & B & _). cbn [w_addr w_size] in *. cbv zeta in B. rewrite Z2Nat.id in X by exact P.
    assert (m' = m) as -> by (destruct L' as [N' _], L as [N _]; congruence). lia.
  - apply reads_unmapped; [|reflexivity]. exact (unmapped_layout c c1 b U Ly).
Qed.

(*@doc C85: a load from other addresses gets what it would have got without the store. @*)
Lemma C85_store_elsewhere_proof : forall py c i t ms s a, cpu_ok c -> gpr t -> size_ok ms -> transfers c Store i t ms s a ->
  exists c1, execute py c i = (mkst c1 i, Ok tt) /\
  forall c2 j t2 m2 sgn b v, regs_ok c2 -> c_mem c2 = c_mem c1 -> gpr t2 -> size_ok m2 -> transfers c2 Load j t2 m2 sgn b ->
  b + m2 / 8 <= a \/ a + ms / 8 <= b -> reads c b m2 v ->
  runs py c2 j (advance (set (reg c2) t2 (extended m2 sgn v)) (i_size j)) j.
Proof.
  intros py c i t ms s a OK G S T. destruct (store_runs py c i t ms s a OK G S T) as (c1 & E & W & _).
  exists c1. split; [exact E|]. intros c2 j t2 m2 sgn b v R2 M2 G2 S2 T2 D R.
  apply (load_runs py c2 j t2 m2 sgn b); [exact R2| |exact G2|exact S2|exact T2|].
  - apply (mem_ok_mem c1 c2 M2). apply (wrote_ok _ _ _ (proj2 (proj2 OK)) W).
  - apply (reads_mem c1 c2 _ _ _ M2). apply (reads_elsewhere c c1 a _ ms b m2 v W); [|exact D|exact R].
    destruct S2 as [-> |[-> | ->]]; vm_compute; discriminate.
Qed.
(*@ex
(* strh r4, [r3, #4]; ldr r0, [r3, #0]. *)
Example C85_store_elsewhere_ex : let i := an_insn Store [T 4; N 3; Imm 4; Idx true; Add true; Wb false; Mem 16; Sgn false] false in
  let j := an_insn Load [T 0; N 3; Imm 0; Idx true; Add true; Wb false; Mem 32; Sgn false] false in
  cpu_ok ex_state /\ transfers ex_state Store i 4 16 false 20 /\ 
  let c1 := s_cpu (fst (execute Py2 ex_state i)) in transfers c1 Load j 0 32 false 16 /\ reg (s_cpu (fst (execute Py2 c1 j))) 0 = 0x80ff7f01.
Proof.
  intros i j. split; [exact ex_state_ok|]. split; [|intros c1; split; [|vm_compute; reflexivity]].
  - apply (transfers_imm ex_state Store i 4 16 false 3 4 true); [split; discriminate|split; [discriminate|reflexivity]|split; reflexivity].
  - apply (transfers_imm c1 Load j 0 32 false 3 0 true); [split; discriminate|split; [discriminate|reflexivity]|split; reflexivity].
Qed.
@*)

(*@doc C85: all loads and stores there are (but the loads of literals) are of this kind: the
register, the number of bits and the extension do not depend on the state, the address does. @*)
Lemma C85_all_transfer_proof : forall py i, from_bytes py i -> i_klass i = Load \/ i_klass i = Store ->
  exists t ms sgn, gpr t /\ size_ok ms /\ forall c, exists a, transfers c (i_klass i) i t ms sgn a.
Proof.
  intros py i FB K. destruct (decoded_shaped py i FB) as (l & S & A). remember (i_klass i) as k eqn:E.
  destruct S as [| | | | | | | | | | | | | | | | | | | | |t n v add ms sgn Gt Gn W S|t n m ty amount add ms sgn Gt Gn Gm [S0 S1] S|t n v add ms sgn Gt Gn W S|t n m ty amount add ms sgn Gt Gn Gm [S0 S1] S| | | | | | | |];
    try (exfalso; destruct K as [K|K]; discriminate K);
    exists t, ms, sgn; (split; [exact Gt|]); (split; [exact S|]); intros c; eexists.
  - apply (transfers_imm c Load i t ms sgn n v add Gn W (conj (eq_sym E) A)).
  - apply (transfers_reg c Load i t ms sgn n m ty amount add Gn Gm S0 S1 (conj (eq_sym E) A)).
  - apply (transfers_imm c Store i t ms sgn n v add Gn W (conj (eq_sym E) A)).
  - apply (transfers_reg c Store i t ms sgn n m ty amount add Gn Gm S0 S1 (conj (eq_sym E) A)).
Qed.
(*@ex
(* ldrh r1, [r0, r2]. *)
Example C85_all_transfer_ex : exists i, decode_bytes Py2 [129; 90] 16 = Ok i /\ i_klass i = Load /\ transfers ex_state Load i 1 16 false 0xfffffff7.
Proof.
  eexists. split; [vm_compute; reflexivity|]. split; [reflexivity|].
  match goal with |- transfers ?c ?k ?i _ _ _ _ => apply (transfers_reg c k i 1 16 false 0 2 SR_None 0 true) end;
    [split; discriminate|split; discriminate|discriminate|discriminate|split; vm_compute; reflexivity].
Qed.
@*)
