(** * Proofs of further statements about several instructions and about the table *)
From Coq Require Import Lia ZifyBool.
From Verif Require Import CpuModel BitstringModel SpecBits BitFacts SpecArm SpecCpu CpuFacts CpuThms TableModel IsaThms ExecModel SpecIsa SpecExec ExecFacts ExecArithThms ExecMemThms ExecMultiThms SpecWhole ExecRefThms SpecIsa SpecExec SpecMore.
Local Open Scope list_scope.
Local Open Scope Z_scope.
Local Open Scope bool_scope.
(*@imports From Coq Require Import Lia.
From Verif Require Import CpuModel BitstringModel SpecBits SpecArm SpecCpu TableModel ExecModel ExecFacts SpecWhole SpecIsa SpecExec SpecMore MoreThms.
Local Open Scope list_scope.
Local Open Scope Z_scope.
Local Open Scope bool_scope. @*)

Lemma rebased_ext : forall v n wb f g, gpr n -> (forall k, core k -> f k = g k) -> forall k, core k -> rebased v n wb f k = rebased v n wb g k.
Proof.
  intros v n wb f g Gn H k K. unfold rebased. destruct (wb && negb (Z.testbit v n)); [|apply H; exact K].
  rewrite (H n) by (apply core_gpr; exact Gn). apply set_ext; assumption.
Qed.
Lemma transferred_ok : forall v, Z.testbit v 13 = false -> Forall (fun x => gpr x /\ x <> 13) (transferred Py2 v).
Proof.
  intros v B. apply Forall_forall. intros x X. split.
  - pose proof (transferred_gpr Py2 v) as T. rewrite Forall_forall in T. exact (T x X).
  - intros ->. apply filter_In in X as [_ X]. cbn [is_listed] in X. congruence.
Qed.

(*@doc C86: on Python 2, a load multiple of the list, at the address at which a store multiple
    of it has stored, brings back the listed registers, whatever happened in between to the
    registers; the base is written back by either as C50 says.
    Missing: Python 3 (C50_refuted); lists with sp or pc, which no encoding has. @*)
Lemma C86_store_load_partial_proof : forall c i j n m v wb wb', cpu_ok c -> gpr n -> gpr m -> half v ->
  Z.testbit v 13 = false -> Z.testbit v 15 = false ->
  is_insn i StoreMultiple [N n; Regs v; Wb wb] -> is_insn j LoadMultiple [N m; Regs v; Wb wb'] ->
  in_one_region c (reg c n) (4 * reg_count v) -> reg c n + 4 * reg_count v <= 2 ^ 32 ->
  exists c1, execute Py2 c i = (mkst c1 i, Ok tt) /\
  forall c2, regs_ok c2 -> c_mem c2 = c_mem c1 -> reg c2 m = reg c n ->
  runs Py2 c2 j (rebased v m wb' (advance (taken v (reg c) (reg c2)) (i_size j))) j.
Proof.
  intros c i j n m v wb wb' (H & _ & HM) Gn Gm V B13 B15 Hi Hj Reg Top.
  destruct (C50_store_multiple_proof Py2 c i n v wb H HM Gn V Hi) as (c1 & E1 & W1 & _). cbv zeta in W1.
  exists c1. split; [exact E1|]. intros c2 H2 M2 E2.
  set (l := transferred Py2 v) in *.
  assert (Nn : reg_count v = Z.of_nat (List.length l)) by (apply count_below_15; assumption).
  assert (Wl : words l = 4 * reg_count v) by (unfold words; rewrite <- Nn; reflexivity).
  assert (F : Forall (fun x => gpr x /\ x <> 13) l) by (apply transferred_ok; exact B13).
  assert (Wa : word (reg c n)) by (apply word_gpr; assumption).
  assert (RW : reads_words c1 (reg c n) (map (reg c) l)).
  { apply (stored_words c c1 (reg c) l (reg c n)); rewrite ?Wl; try assumption; [unfold word in Wa; lia|].
    apply Forall_forall. intros x X. rewrite Forall_forall in F. apply word_gpr; [assumption|exact (proj1 (F x X))]. }
  destruct (C50_load_multiple_proof Py2 c2 j m v wb' H2 (mem_ok_mem _ _ M2 (wrote_ok c c1 _ HM W1)) Gm V Hj (map (reg c) l)) as [P _].
  { rewrite E2. apply (reads_words_mem c1); assumption. }
  destruct P as [P _]; [apply map_length|]. fold l in P.
  destruct (P (advance (loaded (reg c2) l (map (reg c) l)) (i_size j))) as (c3 & E3 & M3 & R3).
  { unfold loaded_pc. cbn [is_listed]. rewrite B15. reflexivity. }
  exists c3. split; [assumption|]. split; [assumption|]. intros k Ck. rewrite (R3 k Ck).
  apply rebased_ext; [exact Gm| |exact Ck]. intros k' Ck'. apply advance_ext; [|exact Ck'].
  intros x Cx. rewrite loaded_map by assumption. unfold l. rewrite in_transferred. reflexivity.
Qed.
(*@ex
Example C86_store_load_partial_ex : cpu_ok ex_state /\ half 0x13 /\
  in_one_region ex_state (reg ex_state 3) (4 * reg_count 0x13) /\ reg ex_state 3 + 4 * reg_count 0x13 <= 2 ^ 32 /\
  let c1 := s_cpu (fst (execute Py2 ex_state (an_insn StoreMultiple [N 3; Regs 0x13; Wb true] false))) in
  let c2 := do_cops c1 [CopR 0 (NInt 0); CopR 1 (NInt 0); CopR 4 (NInt 0); CopR 5 (NInt 16)] in
  map (reg_after Py2 c2 (an_insn LoadMultiple [N 5; Regs 0x13; Wb true] false)) [0; 1; 3; 4; 5] = [7; 0x80000001; 28; 0x12345678; 28].
Proof.
  split; [exact ex_state_ok|]. split; [unfold half; lia|]. split; [|split; [vm_compute; discriminate|vm_compute; reflexivity]].
  split; [vm_compute; discriminate|].
  exists 0%nat, (mkmem 0 63 (List.map (fun k => match cell ex_state 0 (Z.of_nat k) with Some b => b | None => 0 end) (List.seq 0 64))).
  intros o O. change (4 * reg_count 0x13) with 12 in *. change (reg ex_state 3) with 16.
  split; [vm_compute; reflexivity|]. split; [unfold in_region; cbn [m_start m_end]; lia|]. intros j m J. inversion J.
Qed.
@*)

(*@doc C86: on Python 3 it does not: stmia r3!, {r0, r1, r4} and ldmia r5!, {r0, r1, r4} also
    change r2. @*)
Lemma C86_py3_refuted_proof : exists c n m v wb wb', cpu_ok c /\ gpr n /\ gpr m /\ half v /\ Z.testbit v 13 = false /\ Z.testbit v 15 = false /\
  let i := an_insn StoreMultiple [N n; Regs v; Wb wb] false in let j := an_insn LoadMultiple [N m; Regs v; Wb wb'] false in
  let c1 := s_cpu (fst (execute Py3 c i)) in
  snd (execute Py3 c i) = Ok tt /\
  exists c2, c2 = do_cops c1 [CopR 2 (NInt 1); CopR m (NInt (reg c n))] /\ snd (execute Py3 c2 j) = Ok tt /\
    reg_after Py3 c2 j 2 <> rebased v m wb' (advance (taken v (reg c) (reg c2)) (i_size j)) 2.
Proof.
  exists (ex_with [(3, 0)]), 3, 5, 0x13, true, true.
  split; [apply ex_with_ok; constructor; [split; [discriminate|reflexivity]|constructor]|].
  do 2 (split; [unfold gpr; lia|]). split; [unfold half; lia|]. do 2 (split; [reflexivity|]).
  cbv zeta. split; [vm_compute; reflexivity|]. eexists. split; [reflexivity|]. split; [vm_compute; reflexivity|]. vm_compute. discriminate.
Qed.

(** ** Push lr, pop pc *)
Lemma reads_words_app : forall c l l' a, reads_words c a (l ++ l') <-> reads_words c a l /\ reads_words c (a + words l) l'.
Proof.
  intros c l. induction l as [|x l IH]; intros l' a; cbn [app reads_words].
  - replace (a + @words Z []) with a by (unfold words; cbn [List.length]; lia). tauto.
  - rewrite (IH l' (a + 4)). replace (a + 4 + words l) with (a + words (x :: l)) by (unfold words; cbn [List.length]; lia). tauto.
Qed.
Lemma lr_last : forall u v, (forall k, 0 <= k < 14 -> Z.testbit v k = Z.testbit u k) -> Z.testbit u 14 = true -> Z.testbit v 14 = false ->
  transferred Py2 u = transferred Py2 v ++ [14].
Proof.
  intros u v E U V. unfold transferred, py_range. change (Z.to_nat 15) with 15%nat. rewrite (seq_S 14 0), map_app, !filter_app.
  change (map Z.of_nat [(0 + 14)%nat]) with [14]. cbn [filter is_listed]. rewrite U, V, app_nil_r. f_equal.
  apply filter_ext_in. intros k K. apply in_map_iff in K as (n & <- & Hn). apply in_seq in Hn. symmetry. apply E. lia.
Qed.
Lemma count_with_15 : forall v, Z.testbit v 15 = true -> reg_count v = Z.of_nat (List.length (transferred Py2 v)) + 1.
Proof.
  intros v B. unfold reg_count, transferred, py_range. change (Z.to_nat 16) with 16%nat. change (Z.to_nat 15) with 15%nat.
  rewrite (seq_S 15 0), map_app, filter_app, app_length. change (map Z.of_nat [(0 + 15)%nat]) with [15]. cbn [filter]. rewrite B. cbn [List.length].
  rewrite Nat2Z.inj_add. reflexivity.
Qed.

(*@doc C87: on Python 2, a pop of the list with the pc in the place of lr, when sp and the memory
    are what the push of the list with lr has left, brings back the other registers of the list
    and sp and continues at the address that lr held.
    Missing: Python 3 (C49_refuted). @*)
Lemma C87_push_pop_pc_partial_proof : forall c i j u v, cpu_ok c -> half u -> half v ->
  Z.testbit u 13 = false -> Z.testbit u 14 = true -> Z.testbit u 15 = false ->
  Z.testbit v 14 = false -> Z.testbit v 15 = true -> (forall k, 0 <= k < 14 -> Z.testbit v k = Z.testbit u k) ->
  is_insn i Push [Regs u] -> is_insn j Pop [Regs v] ->
  in_one_region c (reg c 13 - 4 * reg_count u) (4 * reg_count u) ->
  exists c1, execute Py2 c i = (mkst c1 i, Ok tt) /\ reg c1 13 = reg c 13 - 4 * reg_count u /\
  forall c2, regs_ok c2 -> c_mem c2 = c_mem c1 -> reg c2 13 = reg c1 13 ->
  runs Py2 c2 j (set (restored v (reg c) (reg c2)) 15 (reg c 14)) j.
Proof.
  intros c i j u v (H & (S1 & S2 & S3) & HM) U V B13 U14 U15 V14 V15 UV Hi Hj Reg.
  destruct (C49_push_proof Py2 c i u H HM U Hi) as (c1 & E1 & W1 & R1). cbv zeta in *.
  pose proof (lr_last u v UV U14 V14) as L.
  assert (Nu : reg_count u = Z.of_nat (List.length (transferred Py2 u))) by (apply count_below_15; assumption).
  assert (Nv : reg_count v = reg_count u).
  { rewrite Nu, L, app_length, (count_with_15 v V15). cbn [List.length]. lia. }
  set (n := reg_count u) in *. set (l := transferred Py2 v) in *.
  assert (Wsp : word (reg c 13)) by (apply word_gpr; [assumption|unfold gpr; lia]).
  assert (A0 : 0 <= reg c 13 - 4 * n) by apply Reg.
  set (a := reg c 13 - 4 * n) in *.
  assert (Wa : word a) by (unfold word in *; lia).
  rewrite (wrap_small a Wa) in *.
  assert (Aa : a mod 4 = 0) by (unfold a; replace (reg c 13 - 4 * n) with (reg c 13 + (- n) * 4) by lia; rewrite Z.mod_add by lia; assumption).
  assert (R13 : reg c1 13 = a).
  { rewrite (R1 13) by (unfold core; lia). unfold advance, set at 1, written. cbn [Z.eqb Pos.eqb orb andb]. unfold set, written. cbn [Z.eqb Pos.eqb orb andb].
    apply kept_aligned. assumption. }
  exists c1. split; [assumption|]. split; [assumption|]. intros c2 H2 M2 E2.
  assert (F : Forall (fun x => gpr x /\ x <> 13) (transferred Py2 u)) by (apply transferred_ok; exact B13).
  assert (Wl : words (transferred Py2 u) = 4 * n) by (unfold words; rewrite <- Nu; reflexivity).
  assert (RW : reads_words c1 a (map (set (reg c) 13 a) (transferred Py2 u))).
  { apply (stored_words c c1 (set (reg c) 13 a) (transferred Py2 u) a); try assumption; rewrite ?Wl; try assumption; try (unfold word in Wsp; lia).
    apply Forall_forall. intros x X. rewrite Forall_forall in F. destruct (F x X) as [Gx Nx].
    unfold set, written. unfold gpr in Gx. replace (x =? 13) with false by lia. replace (x =? 17) with false by lia. cbn [orb andb].
    apply word_gpr; [assumption|exact Gx]. }
  assert (Em : map (set (reg c) 13 a) (transferred Py2 u) = map (reg c) (transferred Py2 u)).
  { apply map_ext_in. intros x X. rewrite Forall_forall in F. destruct (F x X) as [Gx Nx].
    unfold set, written. unfold gpr in Gx. replace (x =? 13) with false by lia. replace (x =? 17) with false by lia. reflexivity. }
  rewrite Em, L, map_app in RW. apply reads_words_app in RW as [RW RP].
  rewrite L in F. apply Forall_app in F as [F _].
  destruct (C49_pop_proof Py2 c2 j v H2 (mem_ok_mem _ _ M2 (wrote_ok c c1 _ HM W1)) V Hj (map (reg c) l)) as [P _].
  { rewrite E2, R13. apply (reads_words_mem c1); assumption. }
  destruct P as [P _]; [apply map_length|]. fold l in P.
  destruct (P (set (loaded (set (reg c2) 13 (wrap (reg c2 13 + 4 * reg_count v))) l (map (reg c) l)) 15 (reg c 14))) as (c3 & E3 & M3 & R3).
  { unfold loaded_pc. cbn [is_listed]. rewrite V15. exists (reg c 14). split; [|reflexivity].
    cbn [map reads_words] in RP. destruct RP as [RP _]. rewrite E2, R13.
    replace (words l) with (words (map (reg c) l)) by (unfold words; rewrite map_length; reflexivity).
    apply (reads_mem c1); assumption. }
  exists c3. split; [assumption|]. split; [assumption|]. intros k Ck. rewrite (R3 k Ck). apply set_ext; [|assumption].
  intros x Cx. rewrite loaded_map by assumption. unfold l. rewrite in_transferred. unfold restored.
  rewrite E2, R13, Nv. replace (wrap (a + 4 * n)) with (reg c 13) by (unfold a; rewrite wrap_small; unfold word in *; lia).
  destruct ((0 <=? x) && (x <=? 14) && Z.testbit v x) eqn:Ex.
  - destruct ((x =? 13) || (x =? 17)) eqn:Ey; [|reflexivity]. exfalso. assert (x = 13) by lia. subst x. rewrite UV, B13 in Ex by lia. discriminate.
  - unfold set, written. cbn [Z.eqb Pos.eqb andb]. rewrite ?orb_false_r.
    destruct ((x =? 13) || (x =? 17)); [apply kept_aligned; assumption|reflexivity].
Qed.
(*@ex
Example C87_push_pop_pc_partial_ex : cpu_ok ex_state /\ half 0x4011 /\ half 0x8011 /\
  (forall k, 0 <= k < 14 -> Z.testbit 0x8011 k = Z.testbit 0x4011 k) /\
  in_one_region ex_state (reg ex_state 13 - 4 * reg_count 0x4011) (4 * reg_count 0x4011) /\
  let c1 := s_cpu (fst (execute Py2 ex_state (an_insn Push [Regs 0x4011] false))) in
  let c2 := do_cops c1 [CopR 0 (NInt 0); CopR 4 (NInt 0); CopR 14 (NInt 0)] in
  map (reg_after Py2 c2 (an_insn Pop [Regs 0x8011] false)) [0; 4; 13; 14; 15] = [7; 0x12345678; 48; 0; 33].
Proof.
  split; [exact ex_state_ok|]. do 2 (split; [unfold half; lia|]). split.
  { intros k K. change 0x8011 with (Z.lor 0x11 (2 ^ 15)). change 0x4011 with (Z.lor 0x11 (2 ^ 14)).
    rewrite !Z.lor_spec, !Z.pow2_bits_false by lia. reflexivity. }
  split; [|vm_compute; reflexivity]. split; [vm_compute; discriminate|].
  exists 0%nat, (mkmem 0 63 (List.map (fun k => match cell ex_state 0 (Z.of_nat k) with Some b => b | None => 0 end) (List.seq 0 64))).
  intros o O. change (4 * reg_count 0x4011) with 12 in *. change (reg ex_state 13) with 48.
  split; [vm_compute; reflexivity|]. split; [unfold in_region; cbn [m_start m_end]; lia|]. intros j m J. inversion J.
Qed.
@*)

(*@doc C87, refuted on Python 3: after push {r4, lr} and pop {r4, pc} execution does not continue
    at the address that lr held. @*)
Lemma C87_py3_refuted_proof : exists c i j, cpu_ok c /\ from_bytes Py3 i /\ from_bytes Py3 j /\ is_insn i Push [Regs 0x4010] /\ is_insn j Pop [Regs 0x8010] /\
  let c1 := s_cpu (fst (execute Py3 c i)) in let c2 := s_cpu (fst (execute Py3 c1 j)) in
  snd (execute Py3 c i) = Ok tt /\ snd (execute Py3 c1 j) = Ok tt /\ reg c2 15 <> reg c 14.
Proof.
  assert (X : exists i j, decode_bytes Py3 [16; 181] 34 = Ok i /\ decode_bytes Py3 [16; 189] 34 = Ok j /\ is_insn i Push [Regs 0x4010] /\ is_insn j Pop [Regs 0x8010] /\
    let c := ex_with [(13, 8)] in
    let c1 := s_cpu (fst (execute Py3 c i)) in let c2 := s_cpu (fst (execute Py3 c1 j)) in
    (snd (execute Py3 c i), snd (execute Py3 c1 j), reg c2 15 =? reg c 14) = (Ok tt, Ok tt, false)).
  { eexists. eexists. split; [vm_compute; reflexivity|]. split; [vm_compute; reflexivity|]. split; [split; vm_compute; reflexivity|]. split; [split; vm_compute; reflexivity|]. vm_compute. reflexivity. }
  destruct X as (i & j & D1 & D2 & K1 & K2 & E). cbv zeta in E. injection E as E1 E2 E3. exists (ex_with [(13, 8)]), i, j.
  split; [apply ex_with_ok; constructor; [split; [discriminate|reflexivity]|constructor]|].
  split; [exists [16; 181], 34; split; [repeat (constructor; [split; [discriminate|reflexivity]|]); constructor|exact D1]|].
  split; [exists [16; 189], 34; split; [repeat (constructor; [split; [discriminate|reflexivity]|]); constructor|exact D2]|].
  split; [exact K1|]. split; [exact K2|]. cbv zeta. split; [exact E1|]. split; [exact E2|]. intros E. apply Z.eqb_eq in E. rewrite E in E3. discriminate E3.
Qed.

(** ** Every encoding is used *)
Definition takes (r : isa_row) (w : Z) : bool := fits (r_text r) w && negb (is_other (r_doc r (field (r_text r) w))).
Definition given (o : outcome) : bool := match o with Gives _ _ _ _ => true | _ => false end.
Definition both (r : isa_row) (w : Z) : bool := given (observed Py2 r w) && given (observed Py3 r w).
Fixpoint used (before : list isa_row) (tb : list isa_row) (ws : list (option Z)) (ok : Z -> bool) : bool :=
  match tb, ws with
  | [], _ => true
  | r :: tb', Some w :: ws' => forallb (fun r' => negb (takes r' w)) before && takes r w && both r w && ok w && used (before ++ [r]) tb' ws' ok
  | r :: tb', None :: ws' => String.eqb (r_text r) push_w && used (before ++ [r]) tb' ws' ok
  | _ :: _, [] => false
  end.
Lemma row_for_at : forall l1 r l2 w, forallb (fun r' => negb (takes r' w)) l1 = true -> takes r w = true -> row_for (l1 ++ r :: l2) w = Some r.
Proof.
  induction l1 as [|x l1 IH]; intros r l2 w A T; cbn [app row_for].
  - unfold takes in T. rewrite T. reflexivity.
  - cbn [forallb] in A. apply andb_prop in A as [A1 A2]. unfold takes in A1. apply negb_true_iff in A1. rewrite A1. apply IH; assumption.
Qed.
Lemma used_all : forall ok tb before ws, used before tb ws ok = true -> forall r, In r tb -> r_text r <> push_w ->
  exists w, row_for (before ++ tb) w = Some r /\ both r w = true /\ ok w = true.
Proof.
  intros ok tb. induction tb as [|r0 tb IH]; intros before ws U r I N; [destruct I|].
  destruct ws as [|[w|] ws]; cbn [used] in U; [discriminate U| |].
  - apply andb_prop in U as [U U4]. apply andb_prop in U as [U U3]. apply andb_prop in U as [U U2]. apply andb_prop in U as [U0 U1].
    destruct I as [->|I].
    + exists w. split; [apply row_for_at; assumption|]. split; assumption.
    + destruct (IH _ _ U4 r I N) as (w' & E & G). exists w'. rewrite <- app_assoc in E. split; [exact E|exact G].
  - apply andb_prop in U as [U0 U4]. destruct I as [->|I].
    + apply String.eqb_eq in U0. contradiction.
    + destruct (IH _ _ U4 r I N) as (w' & E & G). exists w'. rewrite <- app_assoc in E. split; [exact E|exact G].
Qed.
Definition words16 : list (option Z) := map Some
  [48960; 48944; 48928; 48912; 48896; 46690; 17512; 17541; 18304; 18176; 17280; 17152; 16832; 16768; 16704; 16640;
   16576; 16512; 16448; 16384; 16960; 17216; 45760; 45696; 45632; 45568; 47808; 47680; 47616; 0; 17344; 17088;
   17024; 16896; 45184; 45056; 17408; 17920; 17664; 48640; 57088; 56832; 7680; 7168; 6656; 6144; 24064; 23552;
   23040; 22528; 22016; 21504; 20992; 20480; 46363; 48411; 14336; 12288; 43008; 4096; 2048; 1132; 40960; 8192;
   10240; 57344; 34816; 32768; 30720; 28672; 26624; 24576; 18432; 38912; 36864; 52332; 50284; 53248].
Definition words32 : list (option Z) :=
  [Some 218429517; Some 184875101; Some 2405495743; Some 2404447167; Some 2403398591; Some 59983; Some 4034984543;
   Some 4034984479; Some 4034984527; Some 4034984463; Some 4026596096; Some 4038130320; Some 4036033168; Some 4034984592;
   Some 2147546095; Some 63552; Some 63520; Some 63488; Some 63792; Some 63760; Some 63568; Some 63536; Some 63504; None;
   Some 2282353547; Some 251718160; Some 2261772477; Some 61967; Some 62127; Some 60015; Some 251719952; Some 251720112;
   Some 2684418032; Some 61519; Some 63775; Some 63807; Some 63519; Some 63551; Some 63583; Some 1450961032; Some 62016;
   Some 1450961044; Some 61888; Some 3489722368].
Definition ok16 (w : Z) : bool := (0 <=? w) && (w <? 65536) && (w / 2048 <? 29).
Definition ok32 (w : Z) : bool := (0 <=? w) && (w <? 4294967296) && (29 <=? (w mod 65536) / 2048).
Lemma used16 : used [] isa16 words16 ok16 = true.
Proof. vm_compute. reflexivity. Qed.
Lemma used32 : used [] isa32 words32 ok32 = true.
Proof. vm_compute. reflexivity. Qed.
Lemma given_ok : forall py r w is32 a, both r w = true -> exists i, decoded is32 w a (observed py r w) = Ok i.
Proof.
  intros py r w is32 a B. apply andb_prop in B as [B2 B3].
  assert (G : given (observed py r w) = true) by (destruct py; assumption).
  destruct (observed py r w); try discriminate G. eexists. reflexivity.
Qed.
Lemma push_w_row : exists r, In r isa32 /\ r_text r = push_w /\ r_dev r = Some (fun _ _ => Raises NameError) /\
  row_for isa32 0x0003e92d = Some r /\ given (documented r 0x0003e92d) = true.
Proof.
  set (r := nth 23 isa32 (row "" (fun _ => Other))). exists r.
  assert (S : isa32 = firstn 23 isa32 ++ r :: skipn 24 isa32) by reflexivity.
  split; [rewrite S; apply in_or_app; right; left; reflexivity|]. split; [vm_compute; reflexivity|]. split; [reflexivity|].
  split; [|vm_compute; reflexivity]. rewrite S. apply row_for_at; vm_compute; reflexivity.
Qed.
Local Opaque isa16 isa32.
(*@doc C88: none of the 16-bit encodings is hidden by the others: for each there is a halfword
    that the decoder turns into an instruction as this encoding says. @*)
Lemma C88_used16_proof : forall r, In r isa16 -> exists b0 b1, 0 <= b0 < 256 /\ 0 <= b1 < 256 /\ ~ In (b1 / 8) [29; 30; 31] /\
  row_for isa16 (b0 + 256 * b1) = Some r /\
  forall py rest a, exists i, decode_bytes py (b0 :: b1 :: rest) a = Ok i /\
    Ok i = decoded false (b0 + 256 * b1) a (observed py r (b0 + 256 * b1)).
Proof.
  intros r I.
  assert (N : r_text r <> push_w).
  { intros E. assert (X : forallb (fun r => negb (String.eqb (r_text r) push_w)) isa16 = true) by (vm_compute; reflexivity).
    rewrite forallb_forall in X. specialize (X r I). rewrite E in X. discriminate X. }
  destruct (used_all ok16 isa16 [] words16 used16 r I N) as (w & E & B & O). cbn [app] in E. unfold ok16 in O.
  assert (W : 0 <= w < 65536 /\ w / 2048 < 29) by lia. clear O. destruct W as [W P].
  pose proof (Z.div_mod w 256 ltac:(lia)) as DM. pose proof (Z.mod_pos_bound w 256 ltac:(lia)) as MB.
  assert (D : 0 <= w / 256 < 256) by lia.
  assert (P' : ~ In (w / 256 / 8) [29; 30; 31]).
  { rewrite Z.div_div by lia. change (256 * 8) with 2048. cbn [In]. lia. }
  assert (Ew : w mod 256 + 256 * (w / 256) = w) by lia.
  exists (w mod 256), (w / 256). rewrite Ew. do 4 (split; [assumption|]). intros py rest a.
  destruct C31_builds_proof as [t T]. pose proof (C31_decode16_proof t py a (w mod 256) (w / 256) rest T MB D P') as C. rewrite Ew, E in C.
  destruct (given_ok py r w false a B) as [i G]. exists i. split; [|symmetry; exact G].
  unfold decode_bytes. rewrite T. cbn [bind]. rewrite C. exact G.
Qed.
(*@ex
Example C88_used16_ex : List.length isa16 = 78%nat.
Proof. reflexivity. Qed.
@*)

(*@doc C88: the same for the 32-bit encodings, push.w excepted. @*)
Lemma C88_used32_partial_proof : forall r, In r isa32 -> r_text r <> push_w ->
  exists b0 b1 b2 b3, 0 <= b0 < 256 /\ 0 <= b1 < 256 /\ 0 <= b2 < 256 /\ 0 <= b3 < 256 /\ In (b1 / 8) [29; 30; 31] /\
  let w := b0 + 256 * b1 + 65536 * b2 + 16777216 * b3 in
  row_for isa32 w = Some r /\
  forall py rest a, exists i, decode_bytes py (b0 :: b1 :: b2 :: b3 :: rest) a = Ok i /\ Ok i = decoded true w a (observed py r w).
Proof.
  intros r I N.
  destruct (used_all ok32 isa32 [] words32 used32 r I N) as (w & E & B & O). cbn [app] in E. unfold ok32 in O.
  assert (W : 0 <= w < 4294967296 /\ 29 <= (w mod 65536) / 2048) by lia. clear O. destruct W as [W P].
  set (b0 := w mod 256). set (b1 := (w / 256) mod 256). set (b2 := (w / 65536) mod 256). set (b3 := w / 16777216).
  assert (E1 : w / 65536 = w / 256 / 256) by (rewrite Z.div_div by lia; reflexivity).
  assert (E2 : w / 16777216 = w / 256 / 256 / 256) by (rewrite !Z.div_div by lia; reflexivity).
  pose proof (Z.div_mod w 256 ltac:(lia)) as D0. pose proof (Z.div_mod (w / 256) 256 ltac:(lia)) as D1.
  pose proof (Z.div_mod (w / 256 / 256) 256 ltac:(lia)) as D2.
  assert (B0 : 0 <= b0 < 256) by (apply Z.mod_pos_bound; lia). assert (B1 : 0 <= b1 < 256) by (apply Z.mod_pos_bound; lia).
  assert (B2 : 0 <= b2 < 256) by (apply Z.mod_pos_bound; lia). assert (B3 : 0 <= b3 < 256) by (unfold b3; split; [apply Z.div_pos; lia|apply Z.div_lt_upper_bound; lia]).
  assert (Ew : b0 + 256 * b1 + 65536 * b2 + 16777216 * b3 = w).
  { unfold b0, b1, b2, b3. rewrite E2, E1. lia. }
  assert (P' : In (b1 / 8) [29; 30; 31]).
  { assert (M : w mod 65536 = b0 + 256 * b1).
    { rewrite <- Ew. replace (b0 + 256 * b1 + 65536 * b2 + 16777216 * b3) with (b0 + 256 * b1 + (b2 + 256 * b3) * 65536) by lia.
      rewrite Z.mod_add by lia. apply Z.mod_small. lia. }
    assert (Q : (b0 + 256 * b1) / 2048 = b1 / 8).
    { change 2048 with (256 * 8). rewrite <- Z.div_div by lia. f_equal. rewrite Z.mul_comm, Z.div_add by lia. rewrite Z.div_small by lia. reflexivity. }
    rewrite M, Q in P. assert (b1 / 8 < 32) by (apply Z.div_lt_upper_bound; lia). cbn [In]. lia. }
  clearbody b0 b1 b2 b3. clear D0 D1 D2 E1 E2.
  exists b0, b1, b2, b3. cbv zeta. rewrite Ew. do 6 (split; [assumption|]). intros py rest a.
  destruct C31_builds_proof as [t T]. pose proof (C31_decode32_proof t py a b0 b1 b2 b3 rest T B0 B1 B2 B3 P') as C. cbv zeta in C. rewrite Ew, E in C.
  destruct (given_ok py r w true a B) as [i G]. exists i. split; [|symmetry; exact G].
  unfold decode_bytes. rewrite T. cbn [bind]. rewrite C. exact G.
Qed.
(*@ex
Example C88_used32_partial_ex : List.length (filter (fun r => negb (String.eqb (r_text r) push_w)) isa32) = 43%nat.
Proof. vm_compute. reflexivity. Qed.
@*)

(*@doc C88, refuted for push.w: it is in the table and the document gives it a meaning, but no
    word at all is decoded by it, NameError is raised instead. @*)
Lemma C88_push_w_refuted_proof : exists r, In r isa32 /\ r_text r = push_w /\
  (exists w m k l ops, row_for isa32 w = Some r /\ documented r w = Gives m k l ops) /\
  forall py b0 b1 b2 b3 rest a, 0 <= b0 < 256 -> 0 <= b1 < 256 -> 0 <= b2 < 256 -> 0 <= b3 < 256 -> In (b1 / 8) [29; 30; 31] ->
    row_for isa32 (b0 + 256 * b1 + 65536 * b2 + 16777216 * b3) = Some r ->
    decode_bytes py (b0 :: b1 :: b2 :: b3 :: rest) a = Err NameError.
Proof.
  destruct push_w_row as (r & I & T & D & E & G). exists r. split; [exact I|]. split; [exact T|]. split.
  - destruct (documented r 0x0003e92d) as [m k l ops| | |] eqn:X; try discriminate G.
    exists 0x0003e92d, m, k, l, ops. split; [exact E|exact X].
  - clear E. intros py b0 b1 b2 b3 rest a B0 B1 B2 B3 P E.
    destruct C31_builds_proof as [t Ht]. pose proof (C31_decode32_proof t py a b0 b1 b2 b3 rest Ht B0 B1 B2 B3 P) as C. cbv zeta in C. rewrite E in C.
    unfold decode_bytes. rewrite Ht. cbn [bind]. rewrite C. unfold observed. rewrite D. reflexivity.
Qed.
