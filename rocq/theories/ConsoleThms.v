(** * Proofs of the statements about the simulator: start, registers, console *)
From Verif Require Import SimModel SpecBits BitFacts BitText UtilFacts SpecCpu CpuFacts CpuThms SpecWhole SpecDecoder SpecDisasm SpecFormat DisasmThms FormatFacts FormatThms UtilThms IsaThms ExecFacts ExecWholeThms SpecExec SpecIsa SpecSim SpecConsole SimFacts SimThms.
From Coq Require Import Lia.
Local Open Scope string_scope.
Local Open Scope list_scope.
Local Open Scope Z_scope.
Local Open Scope bool_scope.
(*@imports From Verif Require Import SimModel SpecBits SpecCpu SpecWhole SpecDecoder SpecDisasm SpecFormat SpecExec SpecIsa ExecFacts SpecSim SpecConsole ConsoleThms.
From Coq Require Import Lia.
Local Open Scope string_scope.
Local Open Scope list_scope.
Local Open Scope Z_scope.
Local Open Scope bool_scope. @*)

(** ** Start *)
Lemma vector_range : forall binary o, bytes binary -> 0 <= vector binary o < 2 ^ 32.
Proof.
  intros binary o B. unfold vector. assert (N : forall k, 0 <= nth k binary 0 < 256).
  { intros k. destruct (nth_in_or_default k binary 0) as [I| ->]; [|lia]. unfold bytes in B. rewrite Forall_forall in B. now apply B. }
  pose proof (N o). pose proof (N (o + 1)%nat). pose proof (N (o + 2)%nat). pose proof (N (o + 3)%nat). cbn [map le_number]. lia.
Qed.

Lemma ram_size_pos : forall binary, 65536 <= ram_size binary.
Proof. intros binary. unfold ram_size. cbv zeta. destruct (_ =? 0); lia. Qed.
Lemma flash_size_pos : forall binary, 65536 <= flash_size binary /\ Z.of_nat (List.length binary) <= flash_size binary.
Proof. intros binary. unfold flash_size. lia. Qed.

Definition flash (binary : list Z) : list Z := binary ++ repeat 0 (Z.to_nat (flash_size binary) - List.length binary).
Lemma flash_length : forall binary, Z.of_nat (List.length (flash binary)) = flash_size binary.
Proof. intros binary. pose proof (flash_size_pos binary). unfold flash. rewrite app_length, repeat_length. lia. Qed.
Lemma flash_bytes : forall binary, bytes binary -> bytes (flash binary).
Proof.
  intros binary B. apply Forall_app. split; [exact B|]. apply Forall_forall. intros x I. apply repeat_spec in I. subst. lia.
Qed.
Lemma flash_nth : forall binary k, (k < Z.to_nat (flash_size binary))%nat -> nth_error (flash binary) k = Some (nth k binary 0).
Proof.
  intros binary k H. unfold flash. destruct (Nat.lt_ge_cases k (List.length binary)) as [L|L].
  - rewrite nth_error_app1 by exact L. now apply nth_error_nth'.
  - rewrite nth_error_app2, nth_overflow by exact L. 
    rewrite (nth_error_nth' _ 0) by (rewrite repeat_length; lia). rewrite nth_repeat. reflexivity.
Qed.

Lemma word_at : forall c m a o binary, mem_ok c -> located c a 0 m -> m_data m = flash binary -> a - m_start m = Z.of_nat o -> (o + 3 < Z.to_nat (flash_size binary))%nat -> 
  read32 c (NInt a) = Ok (bits 32 (vector binary o)).
Proof.
  intros c m a o binary M L D E H. unfold read32. rewrite (C34_read_proof c a 32 0 m M L) by lia. rewrite E. change (Z.to_nat (32 / 8)) with 4%nat.
  assert (C : forall k, (k < Z.to_nat (flash_size binary))%nat -> cell c 0 (Z.of_nat k) = Some (nth k binary 0)).
  { intros k K. unfold cell. rewrite (proj1 L), D. replace (Z.of_nat k <? 0) with false by (symmetry; apply Z.ltb_ge; lia). rewrite Nat2Z.id. now apply flash_nth. }
  cbn [take_cells]. rewrite (C o) by lia.
  replace (Z.of_nat o + 1) with (Z.of_nat (o + 1)) by lia. rewrite (C (o + 1)%nat) by lia.
  replace (Z.of_nat (o + 1) + 1) with (Z.of_nat (o + 2)) by lia. rewrite (C (o + 2)%nat) by lia.
  replace (Z.of_nat (o + 2) + 1) with (Z.of_nat (o + 3)) by lia. rewrite (C (o + 3)%nat) by lia. reflexivity.
Qed.

(*@doc C65, creation: a new machine with two regions: from 0 on at least 64 KiB with the
binary followed by zeros, and from 0x1fff8000 on at least 64 KiB of zeros, up to the
initial stack pointer. @*)
Lemma C65_create_proof : forall binary, bytes binary -> create_sim binary = Ok (fresh_sim binary) /\ cpu_ok (fresh_sim binary).
Proof.
  intros binary B. destruct (flash_size_pos binary) as [F1 F2]. pose proof (ram_size_pos binary) as RP.
  assert (OK : cpu_ok (fresh_sim binary)).
  { destruct C36_fresh_proof as [RO [SO _]]. split; [exact RO|]. split; [exact SO|]. unfold mem_ok, fresh_sim. cbn [c_mem].
    repeat apply Forall_cons; [| |apply Forall_nil].
    - split; cbn [m_data m_start m_end]; [exact (flash_bytes binary B)|]. fold (flash binary). rewrite flash_length. lia.
    - split; cbn [m_data m_start m_end]; [|rewrite repeat_length; lia]. apply Forall_forall. intros x I. apply repeat_spec in I. subst. lia. }
  split; [|exact OK]. unfold create_sim. fold (flash_size binary). unfold add_memory at 1.
  replace (flash_size binary <? 0) with false by lia. cbn [bind]. change (c_mem cpu_new) with (@nil membuf). cbn [app].
  unfold write_memory_block, find_mem. cbn [c_mem find_mem_from m_start m_end].
  replace (0 <=? 0 + flash_size binary - 1) with true by lia. change (0 <=? 0) with true. cbn [andb m_data]. change (0 - 0) with 0.
  rewrite list_setslice_ok.
  2:{ rewrite repeat_length. lia. } 2:{ exact B. }
  cbn [bind]. change (Z.to_nat 0) with 0%nat. cbn [firstn app plus]. unfold set_data. cbn [c_mem list_update c_regs m_start m_end].
  assert (SK : skipn (List.length binary) (repeat 0 (Z.to_nat (flash_size binary))) = repeat 0 (Z.to_nat (flash_size binary) - List.length binary)).
  { replace (Z.to_nat (flash_size binary)) with (List.length binary + (Z.to_nat (flash_size binary) - List.length binary))%nat at 1 by lia.
    rewrite repeat_app, skipn_app, repeat_length, Nat.sub_diag, skipn_all2 by (rewrite repeat_length; lia). reflexivity. }
  rewrite SK. fold (flash binary).
  match goal with |- context [read32 ?c0 _] => assert (RD : read32 c0 (NInt 0) = Ok (bits 32 (vector binary 0))) end.
  { apply (word_at _ (mkmem 0 (0 + flash_size binary - 1) (flash binary)) 0 0%nat binary); try reflexivity; try lia.
    - apply Forall_cons; [|apply Forall_nil]. split; cbn [m_data m_start m_end]; [exact (flash_bytes binary B)|]. rewrite flash_length. lia.
    - split; [reflexivity|]. split; [split; cbn; lia|]. intros j m' J. lia. }
  rewrite RD. cbn [bind]. unfold bs_unsigned, bits. cbn [bv]. rewrite Z.mod_small by now apply vector_range.
  replace (if negb (vector binary 0 =? 0) then Z.max (vector binary 0 - 536838144) 65536 else 65536) with (ram_size binary)
    by (unfold ram_size, ram_start; cbv zeta; destruct (vector binary 0 =? 0); reflexivity).
  unfold add_memory. replace (ram_size binary <? 0) with false by lia. reflexivity.
Qed.
(*@ex
Example C65_create_ex : match create_sim [0; 0; 2; 32; 9; 0; 0; 0] with
  | Ok c => layout c = [(0, 65535); (536838144, 537001983)] /\ cell c 0 2 = Some 2 /\ cell c 0 8 = Some 0 /\ cell c 0 65536 = None
  | Err _ => False end.
Proof. vm_compute. repeat split; reflexivity. Qed.
@*)

Lemma mapped_find : forall c a, match find_mem c a with Some _ => true | None => false end = mapped_in c a.
Proof.
  intros c a. unfold find_mem, mapped_in. generalize 0%nat. induction (c_mem c) as [|m l IH]; intros i; [reflexivity|]. cbn [find_mem_from existsb].
  destruct ((m_start m <=? a) && (a <=? m_end m)); [reflexivity|]. cbn [orb]. apply IH.
Qed.

(*@doc C65, reset of any machine whose words at 0 and 4 can be read: pc becomes the word at
4 if it points to memory, sp (and msp) the word at 0, rounded down to a multiple of four,
if the word below it is in memory; everything else stays. @*)
Lemma C65_reset_proof : forall s v0 v4, ready s -> 
  let c := sim_cpu s in read32 c (NInt 0) = Ok (bits 32 v0) -> read32 c (NInt 4) = Ok (bits 32 v4) -> 0 <= v0 < 2 ^ 32 -> 0 <= v4 < 2 ^ 32 ->
  exists c' s', reset_sim s = (s', Done tt) /\ printed (on_cpu s c') (reset_text v4 v0) s' /\ c_mem c' = c_mem c /\ (cpu_ok c -> cpu_ok c') /\
    forall k, reg c' k = if (k =? 15) && mapped_in c v4 then v4
                        else if ((k =? 13) || (k =? 17)) && mapped_in c (v0 - 4) then v0 - v0 mod 4
                        else reg c k.
Proof.
  intros s v0 v4 R c R0 R4 H0 H4.
  assert (U : forall v, 0 <= v < 2 ^ 32 -> bs_unsigned (bits 32 v) = v) by (intros v V; unfold bs_unsigned, bits; cbn [bv]; apply Z.mod_small; exact V).
  set (c1 := if mapped_in c v4 then set_pc c (NBits (bits 32 v4)) else c).
  set (c2 := if mapped_in c (v0 - 4) then set_sp c1 (NBits (bits 32 v0)) else c1).
  assert (M1 : c_mem c1 = c_mem c) by (unfold c1; destruct (mapped_in c v4); reflexivity).
  assert (M2 : c_mem c2 = c_mem c) by (unfold c2; destruct (mapped_in c (v0 - 4)); exact M1).
  exists c2. eexists. split.
  - unfold reset_sim. unfold sbind at 1, the_cpu at 1. unfold sbind at 1, slift at 1. fold c. rewrite R4.
    assert (E1 : forall s0, sim_cpu s0 = c -> (match find_mem c (bs_unsigned (bits 32 v4)) with Some _ => set_cpu (set_pc c (NBits (bits 32 v4))) | None => sret tt end) s0 = (on_cpu s0 c1, Done tt)).
    { intros s0 S0. rewrite (U v4 H4). pose proof (mapped_find c v4) as MF. unfold c1. destruct (find_mem c v4) as [p|]; rewrite <- MF; [reflexivity|].
      destruct s0 as [c0 ? ? ?]. cbn in S0. subst c0. reflexivity. }
    unfold sbind at 1. rewrite (E1 s eq_refl).
    unfold sbind at 1, the_cpu at 1. cbn [on_cpu sim_cpu]. unfold sbind at 1, slift at 1.
    assert (R0' : read32 c1 (NInt 0) = Ok (bits 32 v0)).
    { rewrite <- R0. unfold read32, read_memory, mock_read_memory, find_mem. rewrite M1. reflexivity. }
    rewrite R0'. 
    assert (E2 : forall s0, sim_cpu s0 = c1 -> (match find_mem c1 (bs_unsigned (bits 32 v0) - 4) with Some _ => set_cpu (set_sp c1 (NBits (bits 32 v0))) | None => sret tt end) s0 = (on_cpu s0 c2, Done tt)).
    { intros s0 S0. rewrite (U v0 H0). pose proof (mapped_find c (v0 - 4)) as MF. unfold find_mem in *. rewrite M1. unfold c2. destruct (find_mem_from 0 (c_mem c) (v0 - 4)) as [p|]; rewrite <- MF; [reflexivity|].
      destruct s0 as [c0 ? ? ?]. cbn in S0. subst c0. reflexivity. }
    unfold sbind at 1. rewrite (E2 (on_cpu s c1) eq_refl). rewrite !U by assumption.
    rewrite print_say by exact (proj1 R). reflexivity.
  - split; [|split; [exact M2|split]].
    + assert (P : printed (on_cpu (on_cpu s c1) c2) (the_line ("CPU model reset." ++ newline ++ "PC = 0x" ++ fmt_0x 8 v4 ++ newline ++ "SP = 0x" ++ fmt_0x 8 v0)%string)
         (say [("CPU model reset." ++ newline ++ "PC = 0x" ++ fmt_0x 8 v4 ++ newline ++ "SP = 0x" ++ fmt_0x 8 v0)%string; newline] (on_cpu (on_cpu s c1) c2))) by apply printed_line.
      rewrite !fmt_hexn in P by (try lia; change (16 ^ 8) with (2 ^ 32); assumption). rewrite !fmt_hexn by (try lia; change (16 ^ 8) with (2 ^ 32); assumption).
      change (on_cpu (on_cpu s c1) c2) with (on_cpu s c2) in *. unfold reset_text, the_line, newline in *. rewrite !app_assoc_s in P. rewrite !app_assoc_s. exact P.
    + intros [RO [SO MO]]. 
      assert (A1 : regs_ok c1 /\ sp_ok c1).
      { unfold c1. destruct (mapped_in c v4); [|now split]. split; [apply (regs_ok_write c 15)|apply (sp_ok_write c 15)]; try assumption. cbn [num_val]. rewrite U; assumption. }
      assert (A2 : regs_ok c2 /\ sp_ok c2).
      { unfold c2. destruct (mapped_in c (v0 - 4)); [|exact A1]. destruct A1. split; [apply (regs_ok_write c1 13)|apply (sp_ok_write c1 13)]; try assumption. cbn [num_val]. rewrite U; assumption. }
      destruct A2. split; [assumption|]. split; [assumption|]. unfold mem_ok. rewrite M2. exact MO.
    + intros k. assert (W : forall c0 n j v, register_name_to_index (RName n) = Some j -> reg (write_register c0 (RName n) v) k = if written j k then kept j (num_val v) else reg c0 k).
      { intros c0 n j v J. unfold reg. destruct (C36_frame_proof c0 (RName n) j v k J) as [-> _]. destruct (written j k); reflexivity. }
      assert (K1 : reg c1 k = if (k =? 15) && mapped_in c v4 then v4 else reg c k).
      { unfold c1. destruct (mapped_in c v4); [|now rewrite andb_false_r]. unfold set_pc. rewrite (W c "pc" 15 _ eq_refl). cbn [num_val]. rewrite (U v4 H4).
        unfold written, kept. cbn [Z.eqb Pos.eqb orb andb]. rewrite !orb_false_r, andb_true_r. reflexivity. }
      unfold c2. destruct (mapped_in c (v0 - 4)).
      * unfold set_sp. rewrite (W c1 "sp" 13 _ eq_refl). cbn [num_val]. rewrite (U v0 H0), K1. unfold written, kept. cbn [Z.eqb Pos.eqb orb andb]. rewrite !orb_false_r, !andb_true_r.
        destruct (Z.eqb_spec k 13) as [->|N13]; [reflexivity|]. destruct (Z.eqb_spec k 17) as [->|N17]; [reflexivity|]. cbn [orb]. reflexivity.
      * rewrite K1, andb_false_r. reflexivity.
Qed.
(*@ex
Example C65_reset_ex : on_sim (ex_code [7; 0; 0; 0; 5; 0; 0; 0]) (fun s => exists s', reset_sim s = (s', Done tt) /\
  reg (sim_cpu s') 15 = 5 /\ reg (sim_cpu s') 13 = 4 /\ reg (sim_cpu s') 17 = 4 /\ out_text s' = reset_text 5 7).
Proof. vm_compute. eexists. repeat split; reflexivity. Qed.
@*)

(*@doc C65: after the start with a binary pc and sp come from its vector table, if they
point to memory (for sp: the word below it); otherwise they are 0 as in a new machine. @*)
Lemma C65_start_proof : forall t binary, bytes binary -> module_tree t ->
  let v0 := vector binary 0 in let v4 := vector binary 4 in
  exists s' l, sim_start t binary = (s', Done tt) /\ ready s' /\ sim_tree s' = t /\ sim_out s' = map Txt l /\ glue l = reset_text v4 v0 /\
    cpu_ok (sim_cpu s') /\ c_mem (sim_cpu s') = c_mem (fresh_sim binary) /\
    forall k, core k -> reg (sim_cpu s') k = if k =? 15 then (if is_mapped binary v4 then v4 else 0)
      else if (k =? 13) || (k =? 17) then (if is_mapped binary (v0 - 4) then v0 - v0 mod 4 else 0)
      else if k =? 16 then 2 ^ 24 else 0.
Proof.
  intros t binary B MT v0 v4. destruct (C65_create_proof binary B) as [E OK]. pose proof (flash_size_pos binary) as [F1 F2].
  assert (L : forall a, 0 <= a < 65536 -> located (fresh_sim binary) a 0 (mkmem 0 (flash_size binary - 1) (flash binary))).
  { intros a Ha. split; [reflexivity|]. split; [split; cbn [m_start m_end]; lia|]. intros j m' J. lia. }
  assert (R0 : read32 (fresh_sim binary) (NInt 0) = Ok (bits 32 v0)) by (apply (word_at _ _ 0 0%nat binary (proj2 (proj2 OK)) (L 0 ltac:(lia))); try reflexivity; lia).
  assert (R4 : read32 (fresh_sim binary) (NInt 4) = Ok (bits 32 v4)) by (apply (word_at _ _ 4 4%nat binary (proj2 (proj2 OK)) (L 4 ltac:(lia))); try reflexivity; lia).
  pose proof (vector_range binary 0 B) as H0. pose proof (vector_range binary 4 B) as H4. fold v0 in H0. fold v4 in H4.
  destruct (C65_reset_proof (mksim (fresh_sim binary) t [] false) v0 v4 ltac:(split; [reflexivity|exact MT]) R0 R4 H0 H4) as [c' [s' [ES [P [CM [CO RG]]]]]].
  cbn [sim_cpu] in *. assert (MI : forall a, mapped_in (fresh_sim binary) a = is_mapped binary a).
  { intros a. unfold mapped_in, is_mapped, fresh_sim. cbn [c_mem existsb m_start m_end]. rewrite orb_false_r.
    replace (a <=? flash_size binary - 1) with (a <? flash_size binary) by lia.
    replace (a <=? ram_start + ram_size binary - 1) with (a <? ram_start + ram_size binary) by lia. reflexivity. }
  rewrite !MI in RG. destruct P as [PC [PT [PS [l [PO PG]]]]]. cbn [sim_cpu sim_tree sim_out on_cpu app] in *.
  exists s', l. unfold sim_start. rewrite E. split; [exact ES|].
  assert (RK : forall k, core k -> reg (sim_cpu s') k = if k =? 15 then (if is_mapped binary v4 then v4 else 0)
      else if (k =? 13) || (k =? 17) then (if is_mapped binary (v0 - 4) then v0 - v0 mod 4 else 0)
      else if k =? 16 then 2 ^ 24 else 0).
  { intros k K. rewrite PC, RG. destruct C36_fresh_proof as [_ [_ [_ [_ [FR _]]]]].
    change (reg (fresh_sim binary) k) with (reg cpu_new k). rewrite FR by exact K.
    destruct (Z.eqb_spec k 15) as [->|N15]; [destruct (is_mapped binary v4); reflexivity|]. cbn [andb].
    destruct (Z.eqb_spec k 13) as [->|N13]; [destruct (is_mapped binary (v0 - 4)); reflexivity|].
    destruct (Z.eqb_spec k 17) as [->|N17]; [destruct (is_mapped binary (v0 - 4)); reflexivity|]. reflexivity. }
  split; [split; [exact PS|rewrite PT; exact MT]|]. split; [exact PT|]. split; [exact PO|]. split; [exact PG|].
  split; [rewrite PC; exact (CO OK)|]. split; [congruence|exact RK].
Qed.
(*@ex
Example C65_start_ex : match DECODER_TREE with
  | Ok t => match sim_start t [8; 0; 0; 32; 9; 0; 0; 0] with
            | (s, Done _) => reg (sim_cpu s) 15 = 9 /\ reg (sim_cpu s) 13 = 536870920 /\ out_text s = reset_text 9 536870920
            | _ => False end /\
            match sim_start t [8; 0; 0; 0; 0; 0; 1; 0] with
            | (s, Done _) => reg (sim_cpu s) 15 = 0 /\ reg (sim_cpu s) 13 = 8
            | _ => False end
  | Err _ => False end.
Proof. vm_compute. repeat split; reflexivity. Qed.
@*)

(** ** Lines and words *)
Lemma space_ws : forall c, space c <-> is_ws c = true.
Proof.
  intros c. pose proof (all_ascii (fun c => Bool.eqb (existsb (Nat.eqb (nat_of_ascii c)) [32; 9; 10; 11; 12; 13]%nat) (is_ws c)) ltac:(vm_compute; reflexivity) c) as A.
  apply Bool.eqb_prop in A. rewrite <- A. unfold space. rewrite existsb_exists. split.
  - intros I. exists (nat_of_ascii c). split; [exact I|apply Nat.eqb_refl].
  - intros [x [I E]]. apply Nat.eqb_eq in E. now subst.
Qed.
Lemma not_space : forall c, ~ space c <-> is_ws c = false.
Proof. intros c. rewrite space_ws. destruct (is_ws c); split; congruence. Qed.

Definition keep_word (w : list ascii) : bool := match w with [] => false | _ => true end.
Definition words_of (l : list ascii) : list (list ascii) := filter keep_word (words_on l).
Lemma words_space : forall t l, Forall space t -> words_of (t ++ l) = words_of l.
Proof.
  induction t as [|c t IH]; intros l F; [reflexivity|]. inversion F as [|? ? S F']; subst. unfold words_of in *. cbn [app words_on].
  rewrite (proj1 (space_ws c) S). cbn [filter keep_word]. now apply IH.
Qed.
Lemma words_on_cons : forall l, exists w ws, words_on l = w :: ws.
Proof.
  induction l as [|c l [w [ws E]]]; cbn [words_on]; [eauto|]. destruct (is_ws c); [eauto|]. rewrite E. eauto.
Qed.
Lemma words_on_word : forall w, Forall (fun c => ~ space c) w -> words_on w = [w].
Proof.
  induction w as [|c w IH]; intros F; [reflexivity|]. inversion F as [|? ? S F']; subst. cbn [words_on]. rewrite (proj1 (not_space c) S), IH by exact F'. reflexivity.
Qed.
Lemma words_on_sep : forall w c l, Forall (fun c => ~ space c) w -> space c -> words_on (w ++ c :: l) = w :: words_on l.
Proof.
  induction w as [|a w IH]; intros c l F S; cbn [app words_on].
  - now rewrite (proj1 (space_ws c) S).
  - inversion F as [|? ? SA F']; subst. rewrite (proj1 (not_space a) SA), IH by assumption. reflexivity.
Qed.
Lemma word_cons : forall w, word w -> exists c r, chars w = c :: r /\ ~ space c.
Proof. intros w [N F]. destruct (chars w) as [|c r] eqn:E; [destruct w; [congruence|discriminate E]|]. inversion F; subst. eauto. Qed.

(*@doc C71: the words of a line are what is between the white space. @*)
Lemma C71_words_proof : forall ws line, spells ws line <-> SimModel.words line = ws.
Proof.
  assert (A : forall ws line, spells ws line -> SimModel.words line = ws).
  { intros ws line H. unfold SimModel.words. change (filter _ (words_on (chars line))) with (words_of (chars line)).
    induction H as [t B|t w B W|t w c ws rest B W S H IH].
    - rewrite <- (app_nil_r (chars t)), words_space by exact B. reflexivity.
    - rewrite chars_app, words_space by exact B. unfold words_of. rewrite words_on_word by exact (proj2 W).
      destruct (word_cons w W) as [c [r [E _]]]. cbn [filter]. rewrite E. cbn [keep_word map]. rewrite <- E. now rewrite of_chars_chars.
    - rewrite !chars_app, words_space by exact B. cbn [chars]. unfold words_of in *. rewrite words_on_sep by (try exact S; exact (proj2 W)).
      destruct (word_cons w W) as [a [r [E _]]]. cbn [filter]. rewrite E. cbn [keep_word map]. rewrite <- E. now rewrite of_chars_chars, IH. }
  assert (T : forall n line, (String.length line <= n)%nat -> exists ws, spells ws line).
  { induction n as [|n IH]; intros line L.
    - destruct line; [|cbn in L; lia]. exists []. apply spells_nil. constructor.
    - assert (D : forall line, exists t r, line = t +++ r /\ blank t /\ (r = "" \/ exists c r', r = String c r' /\ ~ space c)).
      { clear. induction line as [|c line [t [r [-> [B R]]]]]; [exists "", ""; repeat split; [constructor|now left]|].
        destruct (is_ws c) eqn:E.
        - exists (String c t), r. split; [reflexivity|]. split; [constructor; [now apply space_ws|exact B]|exact R].
        - exists "", (String c (t +++ r)). split; [reflexivity|]. split; [constructor|]. right. exists c, (t +++ r). split; [reflexivity|now apply not_space]. }
      assert (D2 : forall line, exists w r, line = w +++ r /\ Forall (fun c => ~ space c) (chars w) /\ (r = "" \/ exists c r', r = String c r' /\ space c)).
      { clear. induction line as [|c line [t [r [-> [B R]]]]]; [exists "", ""; repeat split; [constructor|now left]|].
        destruct (is_ws c) eqn:E.
        - exists "", (String c (t +++ r)). split; [reflexivity|]. split; [constructor|]. right. exists c, (t +++ r). split; [reflexivity|now apply space_ws].
        - exists (String c t), r. split; [reflexivity|]. split; [constructor; [now apply not_space|exact B]|exact R]. }
      destruct (D line) as [t [r [-> [B R]]]]. destruct R as [->|[c [r' [-> S]]]]; [rewrite app_nil_s; exists []; now apply spells_nil|].
      destruct (D2 r') as [w [r [-> [W R]]]].
      assert (WD : word (String c w)) by (split; [discriminate|constructor; assumption]).
      destruct R as [->|[d [r2 [-> SD]]]].
      + rewrite app_nil_s. exists [String c w]. now apply spells_last.
      + destruct (IH r2) as [ws SP].
        * assert (LA : forall a b, String.length (a +++ b) = (String.length a + String.length b)%nat) by (induction a as [|x a IHa]; intros b; cbn; [reflexivity|now rewrite IHa]).
          cbn [String.append] in L. rewrite LA in L. cbn [String.length] in L. rewrite LA in L. cbn [String.length] in L. lia.
        * exists (String c w :: ws). change (String c (w +++ String d r2)) with (String c w +++ String d r2). now apply spells_cons. }
  intros ws line. split; [apply A|]. intros E. destruct (T _ line (le_n _)) as [ws' S]. rewrite (A _ _ S) in E. now subst.
Qed.
(*@ex
Example C71_words_ex : spells ["read"; "0x10"] " read   0x10" /\ SimModel.words " read   0x10" = ["read"; "0x10"].
Proof. split; [|reflexivity]. apply C71_words_proof. reflexivity. Qed.
@*)

(*@doc C71: a line is split at its semicolons, and the parts are commands executed in this
order, until one ends the console. @*)
Lemma C71_sequence_proof : forall cs line s, commands cs line ->
  process_command_line line s = fold_left (fun r cmd => match r with (s', Done _) => process_command cmd s' | _ => r end) cs (s, Done tt).
Proof.
  assert (SP : forall cs line, commands cs line -> split ";" line = cs).
  { intros cs line H. unfold split. induction H as [t N|t ts rest N H IH].
    - rewrite split_on_none; [cbn; now rewrite of_chars_chars|]. apply Forall_forall. intros x I. destruct (Ascii.eqb_spec x ";"); [subst; contradiction|reflexivity].
    - rewrite chars_app. cbn [chars]. rewrite split_on_app.
      + cbn [map]. now rewrite IH, of_chars_chars.
      + apply Forall_forall. intros x I. destruct (Ascii.eqb_spec x ";"); [subst; contradiction|reflexivity]. }
  assert (ST : forall cs s e, fold_left (fun (r : sim * sres unit) cmd => match r with (s', Done _) => process_command cmd s' | _ => r end) cs (s, Fail e) = (s, Fail e))
    by (induction cs as [|c cs IH]; intros s e; [reflexivity|apply IH]).
  intros cs line s H. unfold process_command_line. rewrite (SP _ _ H). clear H SP. revert s. induction cs as [|c cs IH]; intros s; [reflexivity|].
  cbn [fold_right fold_left]. unfold sbind. destruct (process_command c s) as [s' [[]|e]]; [apply IH|]. now rewrite ST.
Qed.
(*@ex
Example C71_sequence_ex : commands ["r0"; " wreg r0 5 "; "r0"] "r0; wreg r0 5 ;r0" /\
  on_sim cpu_new (fun s => out_text (fst (process_command_line "r0; wreg r0 5 ;r0" s)) = the_line "r0 = 0x00000000 (0)" +++ the_line "r0 = 0x00000005 (5)").
Proof.
  split; [|vm_compute; reflexivity].
  assert (N : forall t, forallb (fun x => negb (Ascii.eqb x ";")) (chars t) = true -> no_char ";" t).
  { intros t F I. rewrite forallb_forall in F. specialize (F _ I). discriminate F. }
  apply (commands_cons "r0" _ " wreg r0 5 ;r0"); [now apply N|]. apply (commands_cons " wreg r0 5 " _ "r0"); [now apply N|]. apply commands_last. now apply N.
Qed.
@*)

(** ** Dispatch *)
Lemma drop_ws_spaces : forall t l, Forall space t -> drop_ws (t ++ l) = drop_ws l.
Proof.
  induction t as [|c t IH]; intros l F; [reflexivity|]. inversion F as [|? ? S F']; subst. cbn [app drop_ws]. rewrite (proj1 (space_ws c) S). now apply IH.
Qed.
Lemma drop_ws_end : forall l c, is_ws c = false -> exists y, drop_ws (l ++ [c]) = y ++ [c].
Proof.
  induction l as [|a l IH]; intros c H; cbn [app drop_ws].
  - rewrite H. exists []. reflexivity.
  - destruct (is_ws a); [now apply IH|]. exists (a :: l). reflexivity.
Qed.
Lemma strip_head : forall t c l, Forall space t -> ~ space c -> exists r, strip_ws (t ++ c :: l) = c :: r.
Proof.
  intros t c l F S. apply not_space in S. unfold strip_ws. rewrite drop_ws_spaces by exact F. cbn [drop_ws]. rewrite S.
  cbn [rev]. destruct (drop_ws_end (rev l) c S) as [y E]. rewrite E, rev_app_distr. cbn. eauto.
Qed.
Lemma spells_head : forall w ws line, spells (w :: ws) line -> exists c r r', chars (strip line) = c :: r /\ chars w = c :: r'.
Proof.
  intros w ws line H. assert (D : exists t l, blank t /\ word w /\ chars line = chars t ++ chars w ++ l).
  { inversion H as [|t w' B W|t w' c ws' rest B W S H']; subst.
    - exists t, []. rewrite chars_app, app_nil_r. auto.
    - exists t, (c :: chars rest). rewrite !chars_app. auto. }
  destruct D as [t [l [B [W E]]]]. destruct (word_cons w W) as [c [r [EW S]]]. unfold strip. rewrite chars_of_chars, E, EW. cbn [app].
  destruct (strip_head (chars t) c (r ++ l) B S) as [r2 ->]. eauto.
Qed.

(** What the command [name] does with its arguments. *)
Definition run_name (name : string) (args : list string) : act unit :=
  if existsb (String.eqb name) ["?"; "help"]%string then match args with [] => list_commands | _ => sret tt end
  else if is_register name then handle_reg [name]
  else match dict_get String.eqb name command_list with
       | None => print ("Error: unrecognized command '" ++ name ++ "'")%string
       | Some h => run_handler h args
       end.
Lemma dispatch_words : forall w args cmd s, spells (w :: args) cmd -> ~ starts "$" w -> dispatch cmd s = run_name (lower w) args s.
Proof.
  intros w args cmd s H N. destruct (spells_head _ _ _ H) as [c [r [r' [E E']]]]. apply C71_words_proof in H.
  unfold dispatch, run_name. rewrite E, H. 
  destruct (ascii_dec c "$") as [->|NC].
  - exfalso. apply N. destruct w as [|a w]; [discriminate E'|]. cbn in E'. injection E' as -> _. now exists w.
  - destruct c as [[] [] [] [] [] [] [] []]; try reflexivity. congruence.
Qed.
Lemma dispatch_blank : forall cmd s, blank cmd -> dispatch cmd s = (s, Fail (Raised IndexError)).
Proof.
  intros cmd s B. unfold dispatch. unfold strip. rewrite chars_of_chars. unfold strip_ws.
  rewrite <- (app_nil_r (chars cmd)), drop_ws_spaces by exact B. reflexivity.
Qed.
Lemma dispatch_dollar : forall w args cmd s, spells (w :: args) cmd -> starts "$" w -> exists x, dispatch cmd s = (s, Fail (Eval x)).
Proof.
  intros w args cmd s H [r ->]. destruct (spells_head _ _ _ H) as [c [r1 [r' [E E']]]]. injection E' as <- _. unfold dispatch. rewrite E. eexists. reflexivity.
Qed.

(*@doc C70: the commands and what they do; register names show the register; anything else
is reported as unknown.  The case of a command does not matter. @*)
Lemma C70_commands_proof : forall w args cmd s, spells (w :: args) cmd -> ~ starts "$" w ->
  let name := lower w in let run := dispatch cmd s in
  (In name names_read8 -> run = do_read args 8 s) /\ (In name names_read16 -> run = do_read args 16 s) /\ (In name names_read32 -> run = do_read args 32 s) /\
  (In name names_write8 -> run = do_write args 8 s) /\ (In name names_write16 -> run = do_write args 16 s) /\ (In name names_write32 -> run = do_write args 32 s) /\
  (In name names_step -> run = handle_step args s) /\ (In name names_disasm -> run = handle_disasm args s) /\
  (In name names_info -> run = print "" s) /\ (In name names_exit -> run = (s, Fail ToolExit)) /\
  (In name names_help -> run = (if Nat.eqb (List.length args) 0 then list_commands s else (s, Done tt))) /\
  (name = "reg" -> run = handle_reg args s) /\ (name = "wreg" -> run = handle_write_reg args s) /\
  (name = "reset" -> run = (s, Fail (Raised TypeError))) /\ (name = "map" -> run = (s, Done tt)) /\ (name = "log" -> run = handle_log args s) /\
  (forall k, register_name_to_index (RName name) = Some k -> run = handle_reg [name] s) /\
  (~ In name all_names -> register_name_to_index (RName name) = None -> run = print ("Error: unrecognized command '" +++ name +++ "'") s).
Proof.
  intros w args cmd s H N name run. assert (E : run = run_name name args s) by exact (dispatch_words w args cmd s H N). clearbody run.
  assert (LN : lower name = name) by apply lower_lower. clearbody name. 
  assert (F : forall l (P : string -> Prop), Forall P l -> In name l -> P name) by (intros l P F I; rewrite Forall_forall in F; now apply F).
  assert (G : forall l (r : act unit), Forall (fun n => run_name n args s = r s) l -> In name l -> run = r s).
  { intros l r Q I. rewrite E. exact (F l (fun n => run_name n args s = r s) Q I). }
  assert (Q : forall n (r : act unit), run_name n args s = r s -> name = n -> run = r s) by (intros n r X ->; congruence).
  repeat match goal with |- (In name ?l -> run = ?r s) /\ _ => split; [apply (G l r); repeat (apply Forall_cons; [reflexivity|]); apply Forall_nil|] end.
  split. { intros I. rewrite E. apply (F names_exit (fun n => run_name n args s = (s, Fail ToolExit))); [|exact I]. repeat (apply Forall_cons; [reflexivity|]); apply Forall_nil. }
  split. { intros I. rewrite E. apply (F names_help (fun n => run_name n args s = (if Nat.eqb (List.length args) 0 then list_commands s else (s, Done tt)))); [|exact I].
    apply Forall_cons; [unfold run_name; change (existsb (String.eqb "help") ["?"; "help"]) with true; destruct args; exact eq_refl|].
    apply Forall_cons; [unfold run_name; change (existsb (String.eqb "?") ["?"; "help"]) with true; destruct args; exact eq_refl|]. apply Forall_nil. }
  split; [intros ->; rewrite E; reflexivity|]. split; [intros ->; rewrite E; reflexivity|]. split; [intros ->; rewrite E; reflexivity|].
  split; [intros ->; rewrite E; reflexivity|]. split; [intros ->; rewrite E; reflexivity|].
  split.
  - intros k K. rewrite E. unfold register_name_to_index in K. rewrite LN in K. unfold run_name.
    destruct (existsb (String.eqb name) ["?"; "help"]) eqn:X.
    + exfalso. cbn [existsb] in X. destruct (String.eqb_spec name "?") as [->|_]; [discriminate K|]. destruct (String.eqb_spec name "help") as [->|_]; [discriminate K|discriminate X].
    + rewrite (is_register_get _ _ K). reflexivity.
  - intros NI NR. rewrite E. unfold register_name_to_index in NR. rewrite LN in NR. unfold run_name, is_register. rewrite NR.
    assert (X : forall n, In n all_names -> String.eqb name n = false) by (intros n I; apply String.eqb_neq; intros ->; contradiction).
    cbn [existsb]. rewrite (X "?"), (X "help") by (vm_compute; tauto). cbn [orb].
    assert (D : dict_get String.eqb name command_list = None).
    { unfold command_list. cbn [dict_get]. repeat (rewrite X by (vm_compute; tauto)). reflexivity. }
    rewrite D. reflexivity.
Qed.
(*@ex
Example C70_commands_ex : on_sim (ex_code [1; 2; 3; 4]) (fun s =>
  out_text (fst (process_command " RH 2 " s)) = the_line "00000002:  0403" /\ out_text (fst (process_command "LR" s)) = the_line "lr = 0x00000000 (0)" /\
  out_text (fst (process_command "run 1" s)) = the_line "Error: unrecognized command 'run'").
Proof. vm_compute. repeat split; reflexivity. Qed.
@*)

(*@doc C70: the help text. @*)
Lemma C70_help_proof : forall s, ready s -> exists s', list_commands s = (s', Done tt) /\ printed s help_text s'.
Proof.
  intros s R. unfold list_commands.
  assert (ST : exists ls, fold_right (fun e k => print (help_line e) ;; k) (sret tt) (str_sort fst COMMAND_INFO) = fold_right (fun t k => print t ;; k) (sret tt) ls /\
    glue (map the_line ls) +++ the_line "" +++ the_line "All register names are also available as commands that print the register's value." +++ the_line "Any ADDR or LEN argument will accept a register name." =
    match help_text with String _ _ => glue (map the_line ls) +++ the_line "" +++ the_line "All register names are also available as commands that print the register's value." +++ the_line "Any ADDR or LEN argument will accept a register name." | _ => "" end /\
    the_line "Commands:" +++ the_line "---------" +++ glue (map the_line ls) +++ the_line "" +++ the_line "All register names are also available as commands that print the register's value." +++ the_line "Any ADDR or LEN argument will accept a register name." = help_text).
  { exists (map help_line (str_sort fst COMMAND_INFO)). split; [|split; [reflexivity|vm_compute; reflexivity]].
    generalize (str_sort fst COMMAND_INFO). induction l as [|e l IH]; [reflexivity|]. cbn [fold_right map]. now rewrite IH. }
  destruct ST as [ls [-> [_ HT]]].
  assert (PR : forall ls s0, sim_soft s0 = false -> exists s1, fold_right (fun t k => print t ;; k) (sret tt) ls s0 = (s1, Done tt) /\ printed s0 (glue (map the_line ls)) s1).
  { clear. induction ls as [|t ls IH]; intros s0 S; cbn [fold_right map glue].
    - exists s0. split; [reflexivity|]. pose proof (say_printed [] s0) as P. now rewrite say_nil in P by exact S.
    - unfold sbind at 1. rewrite print_say by exact S. destruct (IH (say [t; newline] s0) eq_refl) as [s1 [E P]]. exists s1. split; [exact E|].
      eapply printed_trans; [apply printed_line|exact P]. }
  unfold sbind at 1. rewrite print_say by exact (proj1 R). unfold sbind at 1.
  destruct (PR ls (say ["Commands:" +++ newline +++ "---------"; newline] s) eq_refl) as [s1 [E1 P1]]. rewrite E1.
  unfold sbind at 1. assert (PE : forall s0, sim_soft s0 = false -> print_end s0 = (say [newline] s0, Done tt)) by (intros [c t o so] S; cbn in S; subst; reflexivity).
  assert (S1 : sim_soft s1 = false) by apply P1. rewrite (PE s1 S1). unfold sbind at 1. rewrite print_say by reflexivity. rewrite print_say by reflexivity.
  eexists. split; [reflexivity|]. rewrite <- HT. rewrite !say_say.
  pose proof (printed_line ("Commands:" ++ newline ++ "---------")%string s) as P0. pose proof (printed_trans _ _ _ _ _ P0 P1) as P2.
  match goal with |- context [say ?l s1] => pose proof (printed_trans _ _ _ _ _ P2 (say_printed l s1)) as P3 end.
  unfold the_line, newline in *. cbn [glue app] in P3. rewrite !app_assoc_s in P3. rewrite !app_assoc_s, ?app_nil_s in *. exact P3.
Qed.
(*@ex
Example C70_help_ex : on_sim cpu_new (fun s => out_text (fst (process_command "help" s)) = help_text).
Proof. vm_compute. reflexivity. Qed.
@*)

(*@doc C70: every name the help lists, except status and stat, is a command, and the names
in one line do the same; of the commands only map is not listed.  Missing: status. @*)
Lemma C70_names_partial_proof : forall line s args, In line listed -> line <> ["stat"; "status"] ->
  (forall n, In n line -> In n all_names) /\
  (forall n m cmd cmd', In n line -> In m line -> spells (n :: args) cmd -> spells (m :: args) cmd' -> dispatch cmd s = dispatch cmd' s) /\
  (forall n, In n all_names -> n = "map" \/ exists l, In l listed /\ In n l).
Proof.
  assert (EQ : forall line, In line listed -> line <> ["stat"; "status"] -> forall n m args s, In n line -> In m line -> run_name n args s = run_name m args s).
  { intros line I N n m args s A B. unfold listed in I. cbn [In] in I.
    repeat (destruct I as [<-|I]; [first [congruence | cbn [In] in A, B; 
      repeat match goal with H : _ \/ _ |- _ => destruct H as [<-|H] | H : False |- _ => destruct H end; reflexivity]|]). destruct I. }
  assert (LW : forall line, In line listed -> forall n, In n line -> lower n = n /\ ~ starts "$" n).
  { assert (F : forallb (forallb (fun n => String.eqb (lower n) n && match n with String "$" _ => false | _ => true end)) listed = true) by (vm_compute; reflexivity).
    rewrite forallb_forall in F. intros line I n J. specialize (F line I). rewrite forallb_forall in F. specialize (F n J). apply andb_prop in F. destruct F as [A B].
    split; [now apply String.eqb_eq|]. intros [r ->]. discriminate B. }
  intros line s args I N. split; [|split].
  - assert (F : forallb (fun l => if list_eq_dec string_dec l ["stat"; "status"] then true else forallb (fun n => existsb (String.eqb n) all_names) l) listed = true) by (vm_compute; reflexivity).
    rewrite forallb_forall in F. specialize (F line I). destruct (list_eq_dec string_dec line ["stat"; "status"]) as [EQL|_]; [contradiction|].
    rewrite forallb_forall in F. intros n J. specialize (F n J). apply existsb_exists in F. destruct F as [x [X Y]]. apply String.eqb_eq in Y. now subst.
  - intros n m cmd cmd' A B C D. destruct (LW line I n A) as [L1 D1]. destruct (LW line I m B) as [L2 D2].
    rewrite (dispatch_words _ _ _ s C D1), (dispatch_words _ _ _ s D D2), L1, L2. exact (EQ line I N n m args s A B).
  - assert (F : forallb (fun n => String.eqb n "map" || existsb (fun l => existsb (String.eqb n) l) listed) all_names = true) by (vm_compute; reflexivity).
    rewrite forallb_forall in F. intros n J. specialize (F n J). apply orb_prop in F. destruct F as [F|F]; [left; now apply String.eqb_eq|right].
    apply existsb_exists in F. destruct F as [l [X Y]]. exists l. split; [exact X|]. apply existsb_exists in Y. destruct Y as [x [Y Z]]. apply String.eqb_eq in Z. now subst.
Qed.
(*@ex
Example C70_names_partial_ex : In ["s"; "step"] listed /\ on_sim (ex_code [0; 191; 0; 191]) (fun s => process_command "s" s = process_command "step" s).
Proof. split; [vm_compute; tauto|]. vm_compute. reflexivity. Qed.
@*)

(*@doc C70 fails: the help lists status, which is not a command. @*)
Lemma C70_refuted_proof : exists line n, In line listed /\ In n line /\ 
  forall s cmd args, spells (n :: args) cmd -> dispatch cmd s = print ("Error: unrecognized command '" +++ n +++ "'") s.
Proof.
  exists ["stat"; "status"], "status". split; [vm_compute; tauto|]. split; [vm_compute; tauto|]. intros s cmd args H.
  rewrite (dispatch_words _ _ _ s H); [reflexivity|]. intros [r E]. discriminate E.
Qed.

(** ** Blank lines *)
Lemma blank_strip : forall t, blank t <-> strip t = "".
Proof.
  intros t. split; intros H.
  - unfold strip, strip_ws. rewrite <- (app_nil_r (chars t)), drop_ws_spaces by exact H. reflexivity.
  - assert (D : forall l, drop_ws l = [] -> Forall space l).
    { induction l as [|c l IH]; intros E; [constructor|]. cbn [drop_ws] in E. destruct (is_ws c) eqn:W; [|discriminate E]. constructor; [now apply space_ws|now apply IH]. }
    unfold blank. apply D. unfold strip, strip_ws in H.
    pose proof (f_equal chars H) as E. rewrite chars_of_chars in E. cbn [chars] in E.
    apply (f_equal (@rev ascii)) in E. rewrite rev_involutive in E. apply D in E. apply Forall_rev in E. rewrite rev_involutive in E.
    clear - E. induction (chars t) as [|c l IH]; [reflexivity|]. cbn [drop_ws] in *. destruct (is_ws c) eqn:W; [now apply IH|].
    inversion E as [|? ? S _]; subst. apply space_ws in S. congruence.
Qed.
Lemma drop_ws_head : forall c l, ~ space c -> drop_ws (c :: l) = c :: l.
Proof. intros c l S. cbn [drop_ws]. apply not_space in S. now rewrite S. Qed.
Lemma trims_strip : forall line r, trims line r -> strip line = r /\ r <> "".
Proof.
  intros line r (a & b & A & B & -> & (c & r1 & E & S) & (d & r2 & E' & S')). 
  assert (N : r <> "") by (intros ->; discriminate E). split; [|exact N].
  unfold strip, strip_ws. rewrite !chars_app, drop_ws_spaces by exact A. rewrite E at 1. cbn [app]. rewrite drop_ws_head by exact S.
  change (c :: r1 ++ chars b) with ((c :: r1) ++ chars b). rewrite <- E. rewrite rev_app_distr, drop_ws_spaces by (apply Forall_rev; exact B).
  rewrite E', rev_app_distr. cbn [rev app]. rewrite drop_ws_head by exact S'. cbn [rev]. rewrite rev_involutive, <- E'. apply of_chars_chars.
Qed.
Lemma strip_no_char : forall c t, no_char c t -> no_char c (strip t).
Proof.
  intros c t N I. apply N. unfold strip in I. rewrite chars_of_chars in I. unfold strip_ws in I.
  assert (D : forall l x, In x (drop_ws l) -> In x l).
  { induction l as [|y l IH]; intros x H; [exact H|]. cbn [drop_ws] in H. destruct (is_ws y); [right; now apply IH|exact H]. }
  apply in_rev in I. apply D in I. apply in_rev in I. now apply D in I.
Qed.
Lemma one_command : forall line s, no_char ";" line -> process_command_line line s = process_command line s.
Proof.
  intros line s N. rewrite (C71_sequence_proof [line] line s) by now apply commands_last. reflexivity.
Qed.

(*@doc C67, what the console does with its input: a line that is not blank is executed and
remembered, without the white space around it; a blank line executes the remembered line
as a single command; the end of the input ends the line on the screen. @*)
Lemma C67_lines_proof : forall last s,
  console_run last [] s = print_end s /\
  (forall line r rest, trims line r -> console_run last (line :: rest) s = (process_command_line r ;; console_run r rest) s) /\
  (forall line rest, blank line -> console_run last (line :: rest) s = (if String.eqb last "" then console_run last rest s else (process_command last ;; console_run last rest) s)) /\
  (forall line, blank line \/ exists r, trims line r).
Proof.
  intros last s. split; [reflexivity|]. split; [|split].
  - intros line r rest T. destruct (trims_strip line r T) as [E N]. cbn [console_run]. rewrite E. apply String.eqb_neq in N. now rewrite N.
  - intros line rest B. apply blank_strip in B. cbn [console_run]. rewrite B. cbn [String.eqb negb]. destruct (String.eqb last ""); reflexivity.
  - intros line.
    assert (D : forall l, Forall space l \/ exists a c r, l = a ++ c :: r /\ Forall space a /\ ~ space c).
    { clear. induction l as [|c l IH]; [left; constructor|]. destruct (is_ws c) eqn:W.
      - apply space_ws in W. destruct IH as [IH|(a & d & r & -> & A & S)]; [left; now constructor|right]. exists (c :: a), d, r. repeat split; [constructor|]; assumption.
      - right. exists [], c, l. repeat split; [constructor|now apply not_space]. }
    destruct (D (chars line)) as [B|(a & c & r & E & A & S)]; [now left|right].
    destruct (D (rev (c :: r))) as [B|(b & d & q & E' & B & S')].
    + exfalso. apply Forall_rev in B. rewrite rev_involutive in B. inversion B; contradiction.
    + apply (f_equal (@rev ascii)) in E'. rewrite rev_involutive, rev_app_distr in E'. cbn [rev] in E'. rewrite <- app_assoc in E'.
      exists (of_chars (rev q ++ [d])). exists (of_chars a), (of_chars (rev b)). unfold blank. rewrite !chars_of_chars.
      split; [exact A|]. split; [now apply Forall_rev|]. split; [|split].
      * rewrite <- (of_chars_chars line), E. rewrite <- (of_chars_chars (_ +++ _)). rewrite !chars_app, !chars_of_chars, <- app_assoc. cbn [app]. now rewrite E'.
      * destruct (rev q) as [|x q'] eqn:Q; cbn [app] in *; [exists d, []|exists x, (q' ++ [d])]; split; try reflexivity; injection E' as <- _; exact S.
      * exists d, (rev q). split; [reflexivity|exact S'].
Qed.
(*@ex
Example C67_lines_ex : trims "  r0 " "r0" /\ on_sim cpu_new (fun s => out_text (fst (console_run "" ["  r0 "; ""; "r1"; "  "] s)) =
  the_line "r0 = 0x00000000 (0)" +++ the_line "r0 = 0x00000000 (0)" +++ the_line "r1 = 0x00000000 (0)" +++ the_line "r1 = 0x00000000 (0)" +++ the_line "").
Proof.
  split; [|vm_compute; reflexivity].
  exists "  ", " ". split; [repeat constructor|]. split; [repeat constructor|]. split; [reflexivity|].
  split; [exists "r"%char, ["0"%char]|exists "0"%char, ["r"%char]]; (split; [reflexivity|]); intros I; cbn in I; repeat destruct I as [I|I]; try discriminate I; exact I.
Qed.
@*)

(*@doc C67: after a line with a single command, a blank line does what typing the line
again does.  Missing: lines with several commands. @*)
Lemma C67_blank_partial_proof : forall last line b rest s, no_char ";" line -> blank b ->
  console_run last (line :: b :: rest) s = console_run last (line :: line :: rest) s.
Proof.
  intros last line b rest s N B. apply blank_strip in B. apply strip_no_char in N. cbn [console_run]. rewrite B.
  destruct (String.eqb (strip line) "") eqn:E; cbn [String.eqb negb].
  - destruct (String.eqb last ""); reflexivity.
  - unfold sbind. destruct (process_command_line (strip line) s) as [s1 [[]|e]]; [|reflexivity].
    now rewrite one_command.
Qed.
(*@ex
Example C67_blank_partial_ex : on_sim (ex_code [1; 32; 64; 28; 0; 191]) (fun s => console_run "" ["s"; ""] s = console_run "" ["s"; "s"] s /\ 
  reg (sim_cpu (fst (console_run "" ["s"; ""] s))) 15 = 4 /\ reg (sim_cpu (fst (console_run "" ["s"; ""] s))) 0 = 2).
Proof. vm_compute. repeat split; reflexivity. Qed.
@*)

(*@doc C67 fails for lines with semicolons: a blank line runs the whole line as one command. @*)
Lemma C67_refuted_proof : exists line, on_sim cpu_new (fun s =>
  out_text (fst (console_run "" [line; ""] s)) <> out_text (fst (console_run "" [line; line] s)) /\
  out_text (fst (console_run "" [line; ""] s)) = the_line "r0 = 0x00000000 (0)" +++ the_line "r1 = 0x00000000 (0)" +++ the_line "Error: unrecognized command 'r0;r1'" +++ the_line "").
Proof. exists "r0;r1". vm_compute. split; [discriminate|reflexivity]. Qed.

(*@doc C67: blank lines before the first command do nothing. @*)
Lemma C67_start_proof : forall bs rest s, Forall blank bs -> console_run "" (bs ++ rest) s = console_run "" rest s.
Proof.
  induction bs as [|b bs IH]; intros rest s F; [reflexivity|]. inversion F as [|? ? B F']; subst. apply blank_strip in B.
  cbn [app console_run]. rewrite B. cbn [String.eqb negb]. now apply IH.
Qed.
(*@ex
Example C67_start_ex : on_sim cpu_new (fun s => console_run "" [""; "   "; "r0"] s = console_run "" ["r0"] s).
Proof. vm_compute. reflexivity. Qed.
@*)

(** ** What commands can do *)
(** Every run of [m] relates the states by [P], and its failures satisfy [E]. *)
Definition good (P : sim -> sim -> Prop) (E : sexc -> Prop) {A} (m : act A) : Prop :=
  forall s, P s (fst (m s)) /\ match snd (m s) with Fail e => E e | Done _ => True end.
Definition handled (e : sexc) : Prop := match e with Raised _ | Tool _ => True | _ => False end.

(** The printing part of the disassembly command. *)
Definition disasm_tail (pc : Z) (l : list insn) (r : res unit) : act unit :=
  do* text := slift (disasm_lines pc (mkfmt None []) l) in
  match r with
  | Err UndefinedInstructionError => print "Undefined instruction"
  | Err e => sfail (Raised e)
  | Ok _ => sret tt
  end ;;
  match last_char text with
  | None => sfail (Raised IndexError)
  | Some c => print (if Ascii.eqb c "010" then of_chars (removelast (chars text)) else text)
  end.
Lemma print_disasm_eq : forall data a s, print_disasm data a s =
  match read_register (sim_cpu s) (RName "pc") with
  | Ok v => let '(t, l, r) := disasm Py2 (sim_tree s) data a in disasm_tail (Z.land (bs_unsigned v) (Z.lnot 1)) l r (with_tree s t)
  | Err e => (s, Fail (Raised e))
  end.
Proof.
  intros data a s. unfold print_disasm. unfold sbind at 1. unfold the_cpu. unfold sbind at 1. unfold slift at 1.
  destruct (read_register (sim_cpu s) (RName "pc")) as [v|e]; [|reflexivity]. unfold sbind at 1. unfold disassemble.
  destruct (disasm Py2 (sim_tree s) data a) as [[t l] r]. reflexivity.
Qed.

Section Good.
Context (P : sim -> sim -> Prop) (E : sexc -> Prop).
Context (P_refl : forall s, P s s).
Context (P_trans : forall a b c, P a b -> P b c -> P a c).
Context (E_handled : forall e, handled e -> E e).
Context (P_print : forall t s, P s (fst (print t s))).

Lemma good_ret : forall A (a : A), good P E (sret a).
Proof. intros A a s. split; [apply P_refl|exact I]. Qed.
Lemma good_fail : forall A e, handled e -> good P E (@sfail A e).
Proof. intros A e O s. split; [apply P_refl|now apply E_handled]. Qed.
Lemma good_lift : forall A (r : res A), good P E (slift r).
Proof. intros A [a|e] s; (split; [apply P_refl|]); [exact I|now apply E_handled]. Qed.
Lemma good_cpu : good P E the_cpu.
Proof. intros s. split; [apply P_refl|exact I]. Qed.
Lemma good_print : forall t, good P E (print t).
Proof. intros t s. split; [apply P_print|exact I]. Qed.
Lemma good_bind : forall A B (m : act A) (k : A -> act B), good P E m -> (forall a, good P E (k a)) -> good P E (sbind m k).
Proof.
  intros A B m k M K s. unfold sbind. destruct (M s) as [M1 M2]. destruct (m s) as [s' [a|e]]; cbn in *; [|split; assumption].
  destruct (K a s') as [K1 K2]. split; [eapply P_trans; eassumption|exact K2].
Qed.
Lemma good_bind_post : forall A B (Q : A -> Prop) (m : act A) (k : A -> act B), good P E m -> (forall s s' a, m s = (s', Done a) -> Q a) ->
  (forall a, Q a -> good P E (k a)) -> good P E (sbind m k).
Proof.
  intros A B Q m k M MQ K s. unfold sbind. destruct (M s) as [M1 M2]. specialize (MQ s). destruct (m s) as [s' [a|e]]; cbn in *; [|split; assumption].
  destruct (K a (MQ s' a eq_refl) s') as [K1 K2]. split; [eapply P_trans; eassumption|exact K2].
Qed.
Lemma good_block : forall a n, good P E (block a n).
Proof.
  intros a n s. unfold block, sbind, the_cpu. destruct (read_memory_block (sim_cpu s) a n); (split; [apply P_refl|]); [exact I|now apply E_handled].
Qed.
Lemma good_bracket : forall t, good P E (bracket_parts t).
Proof.
  intros t. unfold bracket_parts. destruct (split "," (inner t)) as [|x [|y [|z l]]]; try (apply good_fail; exact I); [apply good_ret|].
  apply good_bind; [apply good_lift|intros o; apply good_ret].
Qed.
Lemma good_value : forall t, good P E (register_or_int t).
Proof.
  intros t. unfold register_or_int. destruct (is_register t); [|apply good_lift].
  apply good_bind; [apply good_cpu|intros c]. apply good_bind; [apply good_lift|intros v]. apply good_bind; [apply good_print|intros _; apply good_ret].
Qed.
Lemma good_convert : forall t, good P E (convert_value t).
Proof.
  intros t. unfold convert_value. destruct (chars _) as [|c l]; [apply good_fail; exact I|]. cbv zeta.
  apply good_bind; [destruct (Ascii.eqb c "["); [apply good_bracket|apply good_ret]|]. intros [x o]. apply good_bind; [apply good_value|]. intros v.
  destruct (Ascii.eqb c "["); [|apply good_ret]. apply good_bind; [apply good_block|intros d]. apply good_bind; [apply good_lift|intros w].
  apply good_bind; [apply good_print|intros _; apply good_ret].
Qed.
Lemma good_bytes : forall l, good P E (byte_args l).
Proof.
  induction l as [|a l IH]; cbn [byte_args]; [apply good_ret|]. apply good_bind; [apply good_convert|intros v]. destruct (byte_ok v); [|apply good_fail; exact I].
  apply good_bind; [exact IH|intros vs; apply good_ret].
Qed.
Lemma good_help : (forall s, P s (fst (print_end s))) -> good P E list_commands.
Proof.
  intros PE. unfold list_commands. apply good_bind; [apply good_print|intros _]. apply good_bind.
  - generalize (str_sort fst COMMAND_INFO). induction l as [|e l IH]; cbn [fold_right]; [apply good_ret|]. apply good_bind; [apply good_print|intros _; exact IH].
  - intros _. apply good_bind; [intros s; split; [apply PE|exact I]|intros _]. apply good_bind; [apply good_print|intros _; apply good_print].
Qed.
Context (P_levels : forall s, P s (fst ((print_item LevelError ;; print_end) s))).
Lemma good_log : forall args, good P E (handle_log args).
Proof.
  intros [|a l]; cbn [handle_log]; [apply good_print|]. destruct (existsb _ _); [apply good_ret|]. intros s. split; [apply P_levels|exact I].
Qed.
Context (P_dump : forall data a w s, P s (fst (dumpHexData data a w s))).
Lemma dump_done : forall data w start i first s, snd (dump_items w start i first data s) = Done tt.
Proof.
  induction data as [|d data IH]; intros w start i first s; cbn [dump_items].
  - destruct first; reflexivity.
  - cbv zeta. unfold sbind. destruct first; [unfold print_comma at 1, print_item at 1|]; destruct (w =? 8), (w =? 16);
    repeat match goal with |- context [(i + 1) mod ?n =? 0] => destruct ((i + 1) mod n =? 0) end; unfold print_comma, print_item, print_end, sret; apply IH.
Qed.
Lemma good_read : forall args w, good P E (do_read args w).
Proof.
  intros [|a rest] w; cbn [do_read]; [apply good_print|]. apply good_bind; [apply good_convert|intros addr].
  apply good_bind; [destruct rest; [apply good_ret|apply good_convert]|intros n]. apply good_bind; [apply good_block|intros d].
  apply good_bind; [destruct (w =? 8); [apply good_ret|]; destruct (w =? 16); apply good_lift|intros l].
  intros s. split; [apply P_dump|]. unfold dumpHexData. now rewrite dump_done.
Qed.
Context (P_write : forall a data s c', write_memory_block (sim_cpu s) a data = Ok c' -> bytes data -> P s (on_cpu s c')).
Lemma good_write : forall args w, width_ok w -> good P E (do_write args w).
Proof.
  intros [|a rest] w W; cbn [do_write]; [apply good_print|]. apply good_bind; [apply good_convert|intros addr].
  destruct rest as [|d rest]; [apply good_print|]. apply (good_bind_post _ _ bytes); [apply good_bytes| |].
  { generalize (d :: rest). induction l as [|x l IH]; intros s s1 r B; cbn [byte_args] in B; [unfold sret in B; injection B as _ <-; constructor|].
    unfold sbind at 1 in B. destruct (convert_value x s) as [s2 [v|e]]; [|discriminate B]. destruct (byte_ok v) eqn:V; [|discriminate B].
    unfold sbind in B. destruct (byte_args l s2) as [s3 [vs|e]] eqn:B'; [|discriminate B]. unfold sret in B. injection B as _ <-. constructor; [unfold byte_ok in V; lia|]. eapply IH. exact B'. }
  intros l BY s1.
  set (data := if w =? 8 then l else _). assert (BD : bytes data).
  { unfold data. destruct W as [->|[->| ->]]; cbn [Z.eqb Pos.eqb]; [exact BY|rewrite <- as_bytes_16; apply as_bytes_range|rewrite <- as_bytes_32; apply as_bytes_range]. }
  clearbody data. cbv zeta. unfold sbind, the_cpu. destruct (write_memory_block (sim_cpu s1) addr data) as [c'|e] eqn:WR; cbn [slift].
  - split; [|exact I]. exact (P_write addr data s1 c' WR BD).
  - split; [apply P_refl|now apply E_handled].
Qed.
Context (G_registers : good P E dump_registers).
Lemma good_reg : forall args, good P E (handle_reg args).
Proof.
  intros [|a l]; cbn [handle_reg]; [exact G_registers|]. cbv zeta. destruct (is_register (lower a)); [|apply good_fail; exact I].
  apply good_bind; [apply good_cpu|intros c]. apply good_bind; [apply good_lift|intros v; apply good_print].
Qed.
Context (P_tree : forall s b n data a, read_memory_block (sim_cpu s) b n = Some data -> P s (fst (disassemble data a s))).
Lemma good_print_disasm : forall data a b n s, read_memory_block (sim_cpu s) b n = Some data ->
  P s (fst (print_disasm data a s)) /\ match snd (print_disasm data a s) with Fail e => E e | Done _ => True end.
Proof.
  intros data a b n s R. pose proof (P_tree s b n data a R) as T.
  assert (G : forall pc l r, good P E (disasm_tail pc l r)).
  { intros pc l r. unfold disasm_tail. apply good_bind; [apply good_lift|intros text]. apply good_bind.
    - destruct r as [u|[]]; try (apply good_fail; exact I); [apply good_ret|apply good_print].
    - intros _. destruct (last_char text); [apply good_print|apply good_fail; exact I]. }
  rewrite print_disasm_eq. destruct (read_register (sim_cpu s) (RName "pc")) as [v|e]; [|split; [apply P_refl|now apply E_handled]].
  unfold disassemble in T. destruct (disasm Py2 (sim_tree s) data a) as [[t l] r]. cbn [fst] in T.
  destruct (G (Z.land (bs_unsigned v) (Z.lnot 1)) l r (with_tree s t)) as [G1 G2].
  split; [eapply P_trans; [exact T|exact G1]|exact G2].
Qed.
Lemma good_disasm : forall args, parse_args args <> None -> good P E (handle_disasm args).
Proof.
  intros args N. unfold handle_disasm. destruct (parse_args args) as [[center other]|]; [|congruence]. cbv zeta.
  apply good_bind; [apply good_convert|intros addr]. apply good_bind; [destruct other as [|x [|y l]]; try apply good_ret; apply good_convert|intros n].
  generalize (Z.land (if center then addr - n / 2 else addr) (Z.lnot 1)). intros b s. unfold the_cpu. unfold sbind.
  destruct (read_memory_block (sim_cpu s) b n) as [data|] eqn:R; [|split; [apply P_refl|now apply E_handled]]. eapply good_print_disasm. exact R.
Qed.
Context (P_end : forall s, P s (fst (print_end s))).
Lemma good_run : forall name args, (In name changing -> good P E (run_name name args)) -> ~ In name names_exit -> (In name names_disasm -> parse_args args <> None) ->
  good P E (run_name name args).
Proof.
  intros name args C X D. unfold run_name in *. destruct (existsb (String.eqb name) ["?"; "help"]) eqn:H; [destruct args; [now apply good_help|apply good_ret]|].
  destruct (is_register name) eqn:R; [apply good_reg|]. destruct (dict_get String.eqb name command_list) as [h|] eqn:L; [|apply good_print].
  apply dict_get_In in L. cbn [In command_list] in L.
  repeat (destruct L as [L|L]; [injection L as <- <-; cbn [run_handler] in *;
    first [apply good_print | apply good_reg | apply good_read | apply good_log | apply good_ret | (apply good_fail; exact I) | (apply good_disasm, D; vm_compute; tauto) | (apply C; vm_compute; tauto) | (exfalso; apply X; vm_compute; tauto)]|]).
  destruct L.
Qed.
End Good.

(** Exits and [eval] leave the state alone. *)
Lemma dispatch_good : forall (P : sim -> sim -> Prop) cmd s, (forall s, P s s) ->
  (forall w args, spells (w :: args) cmd -> ~ starts "$" w -> ~ In (lower w) names_exit -> (In (lower w) names_disasm -> parse_args args <> None) -> good P handled (run_name (lower w) args)) ->
  P s (fst (dispatch cmd s)) /\
  match snd (dispatch cmd s) with
  | Fail ToolExit => exists w args, spells (w :: args) cmd /\ In (lower w) names_exit
  | Fail SysExit => exists w args, spells (w :: args) cmd /\ In (lower w) names_disasm /\ parse_args args = None
  | Fail (Eval _) => exists w args, spells (w :: args) cmd /\ starts "$" w
  | Fail (Quit _) | Fail Interrupt => False
  | _ => True
  end.
Proof.
  intros P cmd s PR G. destruct (C71_words_proof (SimModel.words cmd) cmd) as [_ SP]. specialize (SP eq_refl).
  destruct (SimModel.words cmd) as [|w args].
  - inversion SP as [t B| |]; subst. rewrite dispatch_blank by exact B. split; [apply PR|exact I].
  - assert (ST : {starts "$" w} + {~ starts "$" w}).
    { destruct w as [|c w]; [right; intros [r E]; discriminate E|]. destruct (ascii_dec c "$") as [->|N]; [left; now exists w|right; intros [r E]; injection E as -> _; congruence]. }
    destruct ST as [ST|ST].
    + destruct (dispatch_dollar w args cmd s SP ST) as [x ->]. split; [apply PR|]. exists w, args. split; assumption.
    + specialize (G w args SP ST). rewrite (dispatch_words w args cmd s SP ST).
      destruct (in_dec string_dec (lower w) names_exit) as [X|X].
      { assert (R : run_name (lower w) args s = (s, Fail ToolExit)).
        { clear - X. cbn [In names_exit] in X. destruct X as [<-|[<-|[]]]; reflexivity. }
        rewrite R. split; [apply PR|]. exists w, args. split; assumption. }
      destruct (in_dec string_dec (lower w) names_disasm) as [D|D].
      * destruct (parse_args args) as [[ct ot]|] eqn:PA.
        -- assert (NN : In (lower w) names_disasm -> Some (ct, ot) <> None) by (intros _; discriminate). destruct (G X NN s) as [G1 G2]. split; [exact G1|]. destruct (snd (run_name (lower w) args s)) as [|[]]; try exact I; destruct G2.
        -- assert (R : run_name (lower w) args s = (s, Fail SysExit)).
           { clear - D PA. cbn [In names_disasm] in D. destruct D as [<-|[<-|[]]]; cbn [run_name existsb]; unfold run_name, is_register; cbn -[handle_disasm]; unfold handle_disasm; rewrite PA; reflexivity. }
           rewrite R. split; [apply PR|]. exists w, args. repeat split; assumption.
      * destruct (G X (fun y => False_ind _ (D y)) s) as [G1 G2]. split; [exact G1|]. destruct (snd (run_name (lower w) args s)) as [|[]]; try exact I; destruct G2.
Qed.
Lemma process_good : forall (P : sim -> sim -> Prop) cmd s, (forall a b c, P a b -> P b c -> P a c) -> (forall t s, P s (fst (print t s))) ->
  (forall s e, P s (fst ((print_comma "Unexpected exception:" ;; print_item (ErrText e) ;; print_end) s))) -> (forall s m, P s (fst ((print_comma "Error:" ;; print m) s))) ->
  P s (fst (dispatch cmd s)) -> P s (fst (process_command cmd s)) /\
  match snd (process_command cmd s) with
  | Fail e => snd (dispatch cmd s) = Fail e /\ ~ handled e
  | Done _ => match snd (dispatch cmd s) with Fail e => handled e | Done _ => True end
  end.
Proof.
  intros P cmd s PT PP PX PE PD. unfold process_command. destruct (dispatch cmd s) as [s' [u|e]]; cbn [fst snd] in *.
  - split; [exact PD|exact I].
  - destruct e as [e|m| | |x| |].
    + destruct e; (split; [eapply PT; [exact PD|]; first [apply PP|apply PX]|exact I]).
    + split; [eapply PT; [exact PD|apply PE]|exact I].
    + split; [exact PD|]. split; [reflexivity|intros []].
    + split; [exact PD|]. split; [reflexivity|intros []].
    + split; [exact PD|]. split; [reflexivity|intros []].
    + split; [exact PD|]. split; [reflexivity|intros []].
    + split; [exact PD|]. split; [reflexivity|intros []].
Qed.

(** *** Output is only added, and inspection leaves the machine alone *)
Definition grows (s s' : sim) : Prop := exists l, sim_out s' = sim_out s ++ l.
Definition inspects (s s' : sim) : Prop := sim_cpu s' = sim_cpu s /\ grows s s'.
Lemma grows_refl : forall s, grows s s.
Proof. intros s. exists []. now rewrite app_nil_r. Qed.
Lemma grows_trans : forall a b c, grows a b -> grows b c -> grows a c.
Proof. intros a b c [l E] [l' E']. exists (l ++ l'). now rewrite E', E, app_assoc. Qed.
Lemma inspects_refl : forall s, inspects s s.
Proof. intros s. split; [reflexivity|apply grows_refl]. Qed.
Lemma inspects_trans : forall a b c, inspects a b -> inspects b c -> inspects a c.
Proof. intros a b c [E G] [E' G']. split; [congruence|eapply grows_trans; eassumption]. Qed.
Lemma item_inspects : forall c, good inspects handled (print_item c).
Proof. intros c s. split; [|exact I]. split; [reflexivity|]. eexists. reflexivity. Qed.
Lemma end_inspects : good inspects handled print_end.
Proof. intros s. split; [|exact I]. split; [reflexivity|]. eexists. reflexivity. Qed.
Lemma bind_inspects : forall A B (m : act A) (k : A -> act B), good inspects handled m -> (forall a, good inspects handled (k a)) -> good inspects handled (sbind m k).
Proof. apply good_bind. exact inspects_trans. Qed.
Lemma print_inspects : forall t, good inspects handled (print t).
Proof. intros t. apply bind_inspects; [apply item_inspects|intros _; apply end_inspects]. Qed.
Lemma handled_handled : forall e, handled e -> handled e.
Proof. auto. Qed.
Lemma dump_inspects : forall data w a i first, good inspects handled (dump_items w a i first data).
Proof.
  assert (R : forall A (a : A), good inspects handled (sret a)) by (intros A a; apply good_ret; exact inspects_refl).
  induction data as [|d data IH]; intros w a i first; cbn [dump_items].
  - destruct first; [apply R|apply end_inspects].
  - cbv zeta. apply bind_inspects; [destruct first; [apply item_inspects|apply R]|intros _]. apply bind_inspects.
    + destruct (w =? 8); [apply bind_inspects; [apply item_inspects|intros _; destruct (_ =? 0); [apply item_inspects|apply R]]|]. destruct (w =? 16); apply item_inspects.
    + intros _. destruct (_ =? 0); [apply bind_inspects; [apply end_inspects|intros _; apply IH]|apply IH].
Qed.
Lemma registers_inspects : good inspects handled dump_registers.
Proof.
  unfold dump_registers. generalize dump_rows. induction l as [|row l IH]; cbn [fold_right]; [apply good_ret; exact inspects_refl|].
  apply bind_inspects; [|intros _; exact IH]. generalize 0. induction row as [|r row IHr]; intros n; cbn [dump_row]; [apply end_inspects|].
  apply bind_inspects; [apply good_cpu; exact inspects_refl|intros c]. apply bind_inspects; [apply good_lift; [exact inspects_refl|auto]|intros v].
  apply bind_inspects; [apply item_inspects|intros _; apply IHr].
Qed.
Lemma tree_inspects : forall data a, good inspects handled (disassemble data a).
Proof.
  intros data a s. unfold disassemble. destruct (disasm Py2 (sim_tree s) data a) as [[t l] r]. split; [|exact I]. split; [reflexivity|]. exists []. cbn. now rewrite app_nil_r.
Qed.
Lemma run_inspects : forall name args, ~ In name changing -> ~ In name names_exit -> (In name names_disasm -> parse_args args <> None) -> good inspects handled (run_name name args).
Proof.
  intros name args C X D. apply good_run; try assumption; try exact inspects_refl; try exact inspects_trans; try (intros; contradiction).
  - auto.
  - intros t s. apply print_inspects.
  - intros s. apply (bind_inspects _ _ (print_item LevelError)); [apply item_inspects|intros _; apply end_inspects].
  - intros data a w s. apply dump_inspects.
  - exact registers_inspects.
  - intros s b n data a _. apply tree_inspects.
  - intros s. apply end_inspects.
Qed.
Lemma message_inspects : forall t c, good inspects handled (print_comma t ;; print_item c ;; print_end).
Proof. intros t c. apply bind_inspects; [apply item_inspects|intros _]. apply bind_inspects; [apply item_inspects|intros _; apply end_inspects]. Qed.

(*@doc C69: commands other than the writes, [step] and [wreg] do not change the machine:
registers and memory are as before, whatever the arguments. @*)
Lemma C69_inspect_proof : forall cmd s, (forall w args, spells (w :: args) cmd -> ~ In (lower w) changing) ->
  sim_cpu (fst (process_command cmd s)) = sim_cpu s.
Proof.
  intros cmd s N. 
  assert (D : inspects s (fst (dispatch cmd s))).
  { apply (dispatch_good inspects cmd s inspects_refl). intros w args SP ST X DI. apply run_inspects; try assumption. eapply N. exact SP. }
  apply (process_good inspects cmd s inspects_trans); try exact D.
  - intros t s0. apply print_inspects.
  - intros s0 e. apply message_inspects.
  - intros s0 m. apply message_inspects.
Qed.
(*@ex
Example C69_inspect_ex : on_sim (ex_code [1; 32; 64; 28]) (fun s => sim_cpu (fst (process_command "d 0 4" s)) = sim_cpu s /\
  out_text (fst (process_command "d 0 4" s)) = the_line "0x00000000:* 2001         movs    r0, #1" +++ the_line "0x00000002:  1c40         adds    r0, r0, #1").
Proof. vm_compute. split; reflexivity. Qed.
@*)

Lemma inspects_grows : forall A (m : act A), good inspects handled m -> good grows handled m.
Proof. intros A m G s. destruct (G s) as [[_ G1] G2]. split; assumption. Qed.
Lemma bind_grows : forall A B (m : act A) (k : A -> act B), good grows handled m -> (forall a, good grows handled (k a)) -> good grows handled (sbind m k).
Proof. apply good_bind. exact grows_trans. Qed.
Lemma set_grows : forall c, good grows handled (set_cpu c).
Proof. intros c s. split; [|exact I]. exists []. cbn. now rewrite app_nil_r. Qed.
Lemma convert_inspects : forall t, good inspects handled (convert_value t).
Proof. intros t. apply good_convert; [exact inspects_refl|exact inspects_trans|auto|intros; apply print_inspects]. Qed.
Lemma lift_inspects : forall A (r : res A), good inspects handled (slift r).
Proof. intros A r. apply good_lift; [exact inspects_refl|auto]. Qed.
Lemma step_grows : forall args, good grows handled (handle_step args).
Proof.
  intros args. unfold handle_step. apply bind_grows; [apply good_cpu; exact grows_refl|intros c]. apply bind_grows; [apply inspects_grows, lift_inspects|intros v].
  apply bind_grows; [apply good_block; [exact grows_refl|auto]|intros code]. apply bind_grows; [apply inspects_grows, tree_inspects|intros [l r]].
  destruct r as [u|[]]; try (apply good_fail; [exact grows_refl|auto|exact I]); [|apply inspects_grows, print_inspects].
  destruct l as [|i l]; [apply inspects_grows, print_inspects|]. apply bind_grows; [apply inspects_grows, lift_inspects|intros [[i' f'] text]].
  apply bind_grows; [apply inspects_grows, print_inspects|intros _]. destruct (execute Py2 c i') as [st x].
  apply bind_grows; [apply set_grows|intros _; apply inspects_grows, lift_inspects].
Qed.
Lemma write_grows : forall args w, width_ok w -> good grows handled (do_write args w).
Proof.
  intros args w W. apply good_write; try assumption; try exact grows_refl; try exact grows_trans; auto.
  - intros t s. apply print_inspects.
  - intros a data s c' _ _. apply (set_grows c' s).
Qed.
Lemma wreg_grows : forall args, good grows handled (handle_write_reg args).
Proof.
  intros [|a [|v l]]; cbn [handle_write_reg]; try (apply good_fail; [exact grows_refl|auto|exact I]). cbv zeta.
  apply bind_grows; [apply inspects_grows, convert_inspects|intros x]. apply bind_grows; [apply good_cpu; exact grows_refl|intros c]. apply set_grows.
Qed.
Lemma changing_cases : forall name args (Q : act unit -> Prop), In name changing ->
  (forall w, width_ok w -> Q (do_write args w)) -> Q (handle_step args) -> (name = "wreg" -> Q (handle_write_reg args)) -> Q (run_name name args).
Proof.
  intros name args Q I W S R. unfold width_ok in W. cbn [In changing names_write8 names_write16 names_write32 names_step app] in I.
  repeat (destruct I as [<-|I]; [first [exact (W 8 (or_introl eq_refl)) | exact (W 16 (or_intror (or_introl eq_refl))) | exact (W 32 (or_intror (or_intror eq_refl))) | exact S | exact (R eq_refl)]|]).
  destruct I.
Qed.
Lemma run_grows : forall name args, ~ In name names_exit -> (In name names_disasm -> parse_args args <> None) -> good grows handled (run_name name args).
Proof.
  intros name args X D. destruct (in_dec string_dec name changing) as [C|C]; [|now apply inspects_grows, run_inspects].
  apply changing_cases; [exact C|intros w; apply write_grows|apply step_grows|intros _; apply wreg_grows].
Qed.

(*@doc C69: whatever is typed, what has been printed stays: commands only add to the
output. @*)
Lemma C69_output_proof : forall cmd s, exists l, sim_out (fst (process_command cmd s)) = sim_out s ++ l.
Proof.
  intros cmd s. 
  assert (D : grows s (fst (dispatch cmd s))).
  { apply (dispatch_good grows cmd s grows_refl). intros w args SP ST X DI. now apply run_grows. }
  apply (process_good grows cmd s grows_trans); try exact D.
  - intros t s0. apply print_inspects.
  - intros s0 e. apply message_inspects.
  - intros s0 m. apply message_inspects.
Qed.
(*@ex
Example C69_output_ex : on_sim (ex_code [1; 32; 64; 28]) (fun s => out_text (fst (process_command "s" s)) = the_line "0x00000000:  2001         movs    r0, #1").
Proof. vm_compute. reflexivity. Qed.
@*)

(*@doc C71: the only commands that leave the console are [exit] and [quit], [disasm] with
an option it does not know, and Python expressions; all other errors are printed and
the console goes on. @*)
Lemma C71_goes_on_proof : forall cmd s,
  match snd (process_command cmd s) with
  | Done _ => True
  | Fail ToolExit => exists w args, spells (w :: args) cmd /\ In (lower w) names_exit
  | Fail SysExit => exists w args, spells (w :: args) cmd /\ In (lower w) names_disasm /\ parse_args args = None
  | Fail (Eval _) => exists w args, spells (w :: args) cmd /\ starts "$" w
  | Fail _ => False
  end.
Proof.
  intros cmd s.
  assert (D : forall w args, spells (w :: args) cmd -> ~ starts "$" w -> ~ In (lower w) names_exit -> (In (lower w) names_disasm -> parse_args args <> None) -> good grows handled (run_name (lower w) args))
    by (intros w args SP ST X DI; now apply run_grows).
  destruct (dispatch_good grows cmd s grows_refl D) as [D1 D2].
  assert (P : match snd (process_command cmd s) with
    | Fail e => snd (dispatch cmd s) = Fail e /\ ~ handled e
    | Done _ => match snd (dispatch cmd s) with Fail e => handled e | Done _ => True end
    end).
  { apply (process_good grows cmd s grows_trans); try exact D1; [intros t s0; apply print_inspects|intros s0 e; apply message_inspects|intros s0 m; apply message_inspects]. }
  destruct (snd (process_command cmd s)) as [u|e]; [exact I|]. destruct P as [P1 P2]. rewrite P1 in D2. destruct e; try exact D2; apply P2; exact I.
Qed.
(*@ex
Example C71_goes_on_ex : on_sim cpu_new (fun s => snd (process_command "read" s) = Done tt /\ snd (process_command "w 0x" s) = Done tt /\
  snd (process_command "reset" s) = Done tt /\ snd (process_command "disasm -x" s) = Fail SysExit /\ snd (process_command "QUIT now" s) = Fail ToolExit).
Proof. vm_compute. repeat split; reflexivity. Qed.
@*)

(*@doc C71: how errors are shown: invalid arguments and the errors of the tool with their
text, any other exception with its own. @*)
Lemma C71_messages_proof : forall cmd s s', 
  (forall e, dispatch cmd s = (s', Fail (Raised e)) -> sim_soft s' = false ->
    process_command cmd s = (mksim (sim_cpu s') (sim_tree s')
      (sim_out s' ++ (match e with ValueError => [Txt "Error: invalid argument"; Txt newline] | _ => [Txt "Unexpected exception:"; Txt " "; ErrText e; Txt newline] end)) false, Done tt)) /\
  (forall m, dispatch cmd s = (s', Fail (Tool m)) -> sim_soft s' = false -> exists s2, process_command cmd s = (s2, Done tt) /\ printed s' (the_line ("Error: " +++ m)) s2) /\
  (dispatch cmd s = (s', Done tt) -> process_command cmd s = (s', Done tt)).
Proof.
  intros cmd s s'. split; [|split].
  - intros e D S. unfold process_command. rewrite D. destruct s' as [c t o so]. cbn [sim_soft sim_cpu sim_tree sim_out] in *. subst so.
    destruct e; unfold print, print_comma, print_item, print_end, sbind; cbn; rewrite <- !app_assoc; reflexivity.
  - intros m D S. unfold process_command. rewrite D. destruct s' as [c t o so]. cbn [sim_soft] in S. subst so.
    unfold print, print_comma, print_item, print_end, sbind. cbn. eexists. split; [reflexivity|]. repeat split; try reflexivity.
    exists ["Error:"; " "; m; newline]. cbn. rewrite <- !app_assoc. split; reflexivity.
  - intros D. unfold process_command. now rewrite D.
Qed.
(*@ex
Example C71_messages_ex : on_sim cpu_new (fun s => out_text (fst (process_command "wreg r0" s)) = the_line "Error: No value specified" /\
  out_text (fst (process_command "r 12x" s)) = the_line "Error: invalid argument" /\ sim_out (fst (process_command "s" s)) = [Txt "Unexpected exception:"; Txt " "; ErrText TypeError; Txt newline]).
Proof. vm_compute. repeat split; reflexivity. Qed.
@*)

(** *** The machine stays sound *)
Lemma slice_In : forall (l : list Z) a b x, In x (list_slice l a b) -> In x l.
Proof. intros l a b x. unfold list_slice. destruct (slice_indices _ _) as [[[st en] k]|e]; [|intros []]. intros H. eapply skipn_In, firstn_In, H. Qed.
Lemma block_is_bytes : forall c a n data, mem_ok c -> read_memory_block c a n = Some data -> bytes data.
Proof.
  intros c a n data M H. unfold read_memory_block in H. destruct (find_mem c a) as [[[i m] o]|] eqn:F; [|discriminate H]. injection H as <-.
  destruct (located_or_unmapped c a) as [[j [m' L]]|U]; [|rewrite find_mem_unmapped in F by exact U; discriminate F].
  rewrite (find_mem_located _ _ _ _ L) in F. injection F as _ <- _. destruct L as [L _]. apply nth_error_In in L. unfold mem_ok in M. rewrite Forall_forall in M.
  destruct (M m' L) as [B _]. unfold bytes. rewrite Forall_forall in *. intros x I. apply B. eapply slice_In, I.
Qed.
Definition stays (s s' : sim) : Prop := sound s -> sound s' /\ layout (sim_cpu s') = layout (sim_cpu s).
Lemma stays_refl : forall s, stays s s.
Proof. intros s H. now split. Qed.
Lemma stays_trans : forall a b c, stays a b -> stays b c -> stays a c.
Proof. intros a b c H K S. destruct (H S) as [S1 L1]. destruct (K S1) as [S2 L2]. split; [exact S2|congruence]. Qed.
Lemma stays_same : forall s s', sim_cpu s' = sim_cpu s -> sim_tree s' = sim_tree s -> sim_soft s' = false -> stays s s'.
Proof. intros s s' C T F [[R M] K]. rewrite C. split; [|reflexivity]. split; [split; [exact F|now rewrite T]|now rewrite C]. Qed.
Lemma print_stays : forall t, good stays handled (print t).
Proof. intros t s. split; [|exact I]. now apply stays_same. Qed.
Lemma dump_stays : forall data w a i first s, (first = true -> sim_soft s = false) ->
  let s' := fst (dump_items w a i first data s) in sim_cpu s' = sim_cpu s /\ sim_tree s' = sim_tree s /\ sim_soft s' = false.
Proof.
  induction data as [|d data IH]; intros w a i first s F; cbn [dump_items].
  - destruct first; [repeat split; now apply F|repeat split].
  - cbv zeta.
    assert (KT : forall A B (m : act A) (k : A -> act B) s0, (forall s0, exists x, snd (m s0) = Done x /\ sim_cpu (fst (m s0)) = sim_cpu s0 /\ sim_tree (fst (m s0)) = sim_tree s0) ->
      exists s1 x, sbind m k s0 = k x s1 /\ sim_cpu s1 = sim_cpu s0 /\ sim_tree s1 = sim_tree s0).
    { intros A B m k s0 H. destruct (H s0) as [x [E [C T]]]. exists (fst (m s0)), x. unfold sbind. destruct (m s0) as [s1 r]. cbn in *. subst r. repeat split; assumption. }
    destruct (KT _ _ (if first then print_comma (fmt_0x 8 (a + i) ++ ": ")%string else sret tt) (fun _ => (if w =? 8 then print_comma (fmt_0x 2 d) ;; if (i + 1) mod 4 =? 0 then print_comma "" else sret tt
     else if w =? 16 then print_comma (fmt_0x 4 d)
     else print_comma (fmt_0x 8 d)) ;;
    if (i + 1) mod (if w =? 8 then 16 else if w =? 16 then 8 else 4) =? 0
    then print_end ;; dump_items w a (i + 1) true data
    else dump_items w a (i + 1) false data) s) as [s1 [x1 [E1 [C1 T1]]]].
    { intros s0. exists tt. destruct first; repeat split. }
    rewrite E1, <- C1, <- T1.
    destruct (KT _ _ (if w =? 8 then print_comma (fmt_0x 2 d) ;; if (i + 1) mod 4 =? 0 then print_comma "" else sret tt
     else if w =? 16 then print_comma (fmt_0x 4 d) else print_comma (fmt_0x 8 d)) (fun _ => 
    if (i + 1) mod (if w =? 8 then 16 else if w =? 16 then 8 else 4) =? 0
    then print_end ;; dump_items w a (i + 1) true data
    else dump_items w a (i + 1) false data) s1) as [s2 [x2 [E2 [C2 T2]]]].
    { intros s0. exists tt. destruct (w =? 8), (w =? 16), ((i + 1) mod 4 =? 0); repeat split. }
    rewrite E2, <- C2, <- T2. destruct ((i + 1) mod (if w =? 8 then 16 else if w =? 16 then 8 else 4) =? 0).
    + apply (IH w a (i + 1) true (mksim (sim_cpu s2) (sim_tree s2) (sim_out s2 ++ [Txt newline]) false)). reflexivity.
    + apply IH. discriminate.
Qed.

(** The register display. *)
Lemma print_comma_at : forall t s, last_char t = Some " "%char -> print_comma t s = (mksim (sim_cpu s) (sim_tree s) (sim_out s ++ map Txt ((if sim_soft s then [" "] else []) ++ [t])) true, Done tt).
Proof. intros t s L. rewrite print_comma_say. cbn [soft_after]. rewrite L. reflexivity. Qed.
Lemma column_text : forall c (wide : bool) name k, regs_ok c -> core k -> register_name_to_index (RName name) = Some k -> (S (String.length name) <= (if wide then 10 else 4))%nat ->
  exists v, read_register c (RName name) = Ok v /\ 
  SimModel.pad_left (if wide then 10 else 4) (name +++ ":") +++ " " +++ fmt_addr (bs_unsigned v) +++ " " = column c wide name k /\ last_char (column c wide name k) = Some " "%char.
Proof.
  intros c wide name k R K N L. destruct (regs_ok_reg c k R K) as [_ RG]. exists (bits 32 (reg c k)).
  split; [now apply read_index|]. split.
  - unfold column, SimModel.pad_left, fmt_addr. assert (U : bs_unsigned (bits 32 (reg c k)) = reg c k) by (unfold bs_unsigned, bits; cbn [bv]; apply Z.mod_small; exact RG).
    rewrite U, fmt_hexn by (try lia; change (16 ^ 8) with (2 ^ 32); exact RG).
    assert (SL : forall a b, strlen (a +++ b) = strlen a + strlen b).
    { unfold strlen. induction a as [|x a IH]; intros b; cbn [String.append String.length]; [lia|]. specialize (IH b). lia. }
    assert (LN : strlen (name +++ ":") = Z.of_nat (S (String.length name))) by (rewrite SL; unfold strlen; cbn [String.length]; lia).
    rewrite LN. replace (Z.to_nat ((if wide then 10 else 4) - Z.of_nat (S (String.length name)))) with ((if wide then 10 else 4) - S (String.length name))%nat by (destruct wide; lia).
    rewrite !app_assoc_s. reflexivity.
  - unfold column. rewrite <- !app_assoc_s, last_char_app. reflexivity.
Qed.

Fixpoint row_items (c : cpu) (n : Z) (soft : bool) (l : list (string * Z)) : list string :=
  match l with
  | [] => [newline]
  | (name, k) :: l' => (if soft then [" "] else []) ++ [column c (n =? 3) name k] ++ row_items c (n + 1) true l'
  end.
Lemma row_text : forall l n s, regs_ok (sim_cpu s) -> 0 <= n ->
  (forall j name k, nth_error l j = Some (name, k) -> core k /\ register_name_to_index (RName name) = Some k /\ (S (String.length name) <= (if (n + Z.of_nat j =? 3)%Z then 10 else 4))%nat) ->
  dump_row n (map fst l) s = (mksim (sim_cpu s) (sim_tree s) (sim_out s ++ map Txt (row_items (sim_cpu s) n (sim_soft s) l)) false, Done tt).
Proof.
  induction l as [|[name k] l IH]; intros n s R Hn H; cbn [map dump_row row_items]; [reflexivity|].
  destruct (H 0%nat name k eq_refl) as [K [N L]]. change (Z.of_nat 0) with 0 in L. rewrite Z.add_0_r in L.
  destruct (column_text (sim_cpu s) (n =? 3) name k R K N L) as [v [RV [CT LC]]].
  unfold sbind at 1, the_cpu. unfold sbind at 1. cbn [fst]. rewrite RV. cbn [slift]. rewrite CT. unfold sbind at 1. rewrite print_comma_at by exact LC.
  rewrite IH; [| |lia|].
  - cbn [sim_cpu sim_tree sim_out sim_soft]. f_equal. f_equal. destruct (sim_soft s); cbn [app map]; rewrite <- !app_assoc; reflexivity.
  - exact R.
  - intros j nm k' J. destruct (H (S j) nm k' J) as [A [B C]]. split; [exact A|]. split; [exact B|].
    replace (n + 1 + Z.of_nat j) with (n + Z.of_nat (S j)) by lia. exact C.
Qed.
Definition register_rows : list (list (string * Z)) :=
  [[("r0", 0); ("r6", 6); ("r12", 12); ("xpsr", 16)]; [("r1", 1); ("r7", 7); ("sp", 13); ("control", -4)]; [("r2", 2); ("r8", 8); ("lr", 14); ("primask", -1)];
   [("r3", 3); ("r9", 9); ("pc", 15); ("faultmask", -3)]; [("r4", 4); ("r10", 10); ("msp", 17); ("basepri", -2)]; [("r5", 5); ("r11", 11); ("psp", 18)]].
Definition row_ok (l : list (string * Z)) : bool :=
  forallb (fun '(j, (name, k)) => (-4 <=? k) && (k <=? 18) && match register_name_to_index (RName name) with Some x => x =? k | None => false end &&
    (S (String.length name) <=? (if (Z.of_nat j =? 3)%Z then 10 else 4))%nat) (combine (seq 0 (List.length l)) l).
Lemma row_ok_spec : forall l, row_ok l = true -> forall j name k, nth_error l j = Some (name, k) ->
  core k /\ register_name_to_index (RName name) = Some k /\ (S (String.length name) <= (if (0 + Z.of_nat j =? 3)%Z then 10 else 4))%nat.
Proof.
  intros l H j name k J. unfold row_ok in H. rewrite forallb_forall in H.
  assert (IN : forall (A : Type) (l : list A) n j x, nth_error l j = Some x -> In ((n + j)%nat, x) (combine (seq n (List.length l)) l)).
  { clear. induction l as [|y l IH]; intros n [|j] x J; try discriminate J; cbn in *; [left; injection J as ->; f_equal; lia|right]. replace (n + S j)%nat with (S n + j)%nat by lia. now apply IH. }
  specialize (H _ (IN _ l 0%nat j _ J)). cbn beta iota in H. repeat (apply andb_prop in H; destruct H as [H ?]).
  split; [left; lia|]. split.
  - destruct (register_name_to_index (RName name)); [f_equal; lia|discriminate].
  - apply Nat.leb_le in H0. exact H0.
Qed.
Lemma registers_text : forall s, sound s -> exists s', dump_registers s = (s', Done tt) /\ printed s (all_registers (sim_cpu s)) s'.
Proof.
  intros s [[F _] [R _]]. unfold dump_registers. change dump_rows with (map (map fst) register_rows).
  assert (G : forall rows s0, forallb row_ok rows = true -> regs_ok (sim_cpu s0) -> sim_soft s0 = false ->
    fold_right (fun row k => dump_row 0 row ;; k) (sret tt) (map (map fst) rows) s0 = (say (List.concat (map (row_items (sim_cpu s0) 0 false) rows)) s0, Done tt)).
  { induction rows as [|row rows IH]; intros s0 OK R0 F0; cbn [map fold_right List.concat].
    - unfold sret. now rewrite say_nil.
    - cbn [forallb] in OK. apply andb_prop in OK. destruct OK as [O1 O2]. unfold sbind. rewrite (row_text row 0 s0 R0 ltac:(lia) (row_ok_spec row O1)).
      rewrite IH by (try assumption; reflexivity). rewrite F0. cbn [sim_cpu]. unfold say. cbn [sim_cpu sim_tree sim_out]. now rewrite map_app, app_assoc. }
  rewrite (G register_rows s ltac:(vm_compute; reflexivity) R F). eexists. split; [reflexivity|].
  match goal with |- printed s ?t (say ?l s) => replace t with (glue l); [apply say_printed|] end.
  cbn [register_rows map List.concat row_items app glue Z.add Z.eqb Pos.add Pos.eqb Pos.add_carry Pos.succ]. change (0 =? 3) with false. 
  unfold all_registers, four, the_line, newline. rewrite !app_assoc_s, ?app_nil_s. reflexivity.
Qed.

(*@doc C69: the register commands: [reg] alone shows 23 registers in columns, with a name,
in any case, this register in hexadecimal and decimal; a register name is itself a
command; an unknown name is an error. @*)
Lemma C69_registers_proof : forall s a more, sound s -> let c := sim_cpu s in
  (exists s', handle_reg [] s = (s', Done tt) /\ printed s (all_registers c) s') /\
  (forall k, register_name_to_index (RName a) = Some k -> exists s' d, handle_reg (a :: more) s = (s', Done tt) /\ dec_text d (reg c k) /\
    printed s (the_line (lower a +++ " = 0x" +++ hexn 8 (reg c k) +++ " (" +++ d +++ ")")) s') /\
  (register_name_to_index (RName a) = None -> handle_reg (a :: more) s = (s, Fail (Tool ("invalid register '" +++ lower a +++ "'")))).
Proof.
  intros s a more SD c. split; [now apply registers_text|]. destruct SD as [RD [R _]]. split.
  - intros k K. assert (D : dict_get String.eqb (lower a) CORE_REGISTER = Some k) by exact K. cbn [handle_reg]. cbv zeta. rewrite (is_register_get _ _ D).
    assert (CK : core k) by (destruct C36_names_proof as [_ [_ [_ [_ [X _]]]]]; now apply (X a)). assert (K' : register_name_to_index (RName (lower a)) = Some k) by (unfold register_name_to_index; now rewrite lower_lower).
    unfold sbind, the_cpu. rewrite (read_index _ _ k K' R CK). cbn [slift]. destruct (regs_ok_reg c k R CK) as [_ RG].
    assert (U : bs_unsigned (bits 32 (reg c k)) = reg c k) by (unfold bs_unsigned, bits; cbn [bv]; apply Z.mod_small; exact RG).
    fold c. rewrite U, fmt_hexn by (try lia; change (16 ^ 8) with (2 ^ 32); exact RG). change (Z.to_nat 8) with 8%nat. rewrite print_say by exact (proj1 RD).
    eexists. exists (fmt_d (reg c k)). split; [reflexivity|]. split; [apply fmt_d_text|]. apply printed_line.
  - intros K. cbn [handle_reg]. cbv zeta. unfold is_register. unfold register_name_to_index in K. rewrite K. reflexivity.
Qed.
(*@ex
Example C69_registers_ex : on_sim ex_state (fun s => out_text (fst (process_command "R13" s)) = the_line "r13 = 0x00000030 (48)" /\
  out_text (fst (process_command "reg" s)) = all_registers ex_state /\ out_text (fst (process_command "reg r99" s)) = the_line "Error: invalid register 'r99'").
Proof. vm_compute. repeat split; reflexivity. Qed.
@*)

(** ** Register writes *)
(*@doc C69: [wreg] writes the value to the register, or to the pair sp/msp, with the bits
the register does not have cleared, and changes nothing else; without a register or a
value it is an error. @*)
Lemma C69_wreg_proof : forall s a k v x pre more, sound s -> register_name_to_index (RName a) = Some k -> argument (sim_cpu s) v x pre ->
  (exists c' s', handle_write_reg (a :: v :: more) s = (s', Done tt) /\ printed (on_cpu s c') pre s' /\
    c_mem c' = c_mem (sim_cpu s) /\ forall j, reg_get (c_regs c') (Some j) = if written k j then Some (kept k x) else reg_get (c_regs (sim_cpu s)) (Some j)) /\
  handle_write_reg [a] s = (s, Fail (Tool "No value specified")) /\ handle_write_reg [] s = (s, Fail (Tool "No register specified")).
Proof.
  intros s a k v x pre more [R OK] K A. split; [|split; reflexivity].
  destruct (C68_argument_proof s v x pre R OK A) as [s1 [E P]]. cbn [handle_write_reg]. cbv zeta. unfold sbind. rewrite E. unfold the_cpu, set_cpu.
  assert (K' : register_name_to_index (RName (lower a)) = Some k) by (unfold register_name_to_index; now rewrite lower_lower).
  exists (write_register (sim_cpu s1) (RName (lower a)) (NInt x)). eexists. split; [reflexivity|].
  destruct P as [C [T [S [l [O G]]]]]. split; [|split].
  - repeat split; try assumption. exists l. split; assumption.
  - rewrite <- C. reflexivity.
  - intros j. rewrite <- C. apply (C36_frame_proof (sim_cpu s1) (RName (lower a)) k (NInt x) j K').
Qed.
(*@ex
Example C69_wreg_ex : on_sim ex_state (fun s => reg (sim_cpu (fst (process_command "wreg MSP 0x_103" s))) 13 = 256 /\ reg (sim_cpu (fst (process_command "wreg r2 [sp,-4]" s))) 2 = 0).
Proof. vm_compute. split; reflexivity. Qed.
@*)

(*@doc C69 fails for unknown names: [wreg] accepts them without a message, and stores
nothing in any register. @*)
Lemma C69_unknown_refuted_proof : exists name, register_name_to_index (RName name) = None /\ forall s v x pre more, sound s -> argument (sim_cpu s) v x pre ->
  exists c' s', handle_write_reg (name :: v :: more) s = (s', Done tt) /\ printed (on_cpu s c') pre s' /\ c_mem c' = c_mem (sim_cpu s) /\
    forall j, reg_get (c_regs c') (Some j) = reg_get (c_regs (sim_cpu s)) (Some j).
Proof.
  exists "r99". split; [vm_compute; reflexivity|]. intros s v x pre more [R OK] A.
  destruct (C68_argument_proof s v x pre R OK A) as [s1 [E P]]. cbn [handle_write_reg]. cbv zeta. unfold sbind. rewrite E. unfold the_cpu, set_cpu.
  exists (write_register (sim_cpu s1) (RName "r99") (NInt x)). eexists. split; [reflexivity|].
  destruct P as [C [T [S [l [O G]]]]]. split; [|split].
  - repeat split; try assumption. exists l. split; assumption.
  - rewrite <- C. reflexivity.
  - intros j. rewrite <- C. unfold write_register. change (register_name_to_index (RName "r99")) with (@None Z). apply mock_write_none.
Qed.

(** ** Sessions *)
Lemma write_stays : forall a data s c', write_memory_block (sim_cpu s) a data = Ok c' -> bytes data -> stays s (on_cpu s c').
Proof.
  intros a data s c' E B [R [RO [SO MO]]]. destruct (located_or_unmapped (sim_cpu s) a) as [[i [m L]]|U].
  - destruct (C34_block_proof (sim_cpu s) a data i m MO L B) as (c2 & E2 & _ & M2 & L2 & R2 & _). rewrite E in E2. injection E2 as <-.
    split; [|exact L2]. split; [exact R|]. split; [|split].
    + unfold regs_ok. cbn [on_cpu sim_cpu]. rewrite R2. exact RO.
    + unfold sp_ok, reg. cbn [on_cpu sim_cpu]. rewrite R2. exact SO.
    + exact M2.
  - unfold write_memory_block in E. rewrite find_mem_unmapped in E by exact U. injection E as <-. split; [|reflexivity]. split; [exact R|]. repeat split; try assumption; apply SO.
Qed.
Lemma tree_stays : forall s b n data a, read_memory_block (sim_cpu s) b n = Some data -> stays s (fst (disassemble data a s)).
Proof.
  intros s b n data a RB [R OK]. pose proof (block_is_bytes _ _ _ _ (proj2 (proj2 OK)) RB) as B.
  pose proof (C32_listing_proof Py2 (sim_tree s) data a B (proj2 R)) as LI. unfold disassemble. destruct (disasm Py2 (sim_tree s) data a) as [[t l] r].
  split; [|reflexivity]. split; [|exact OK]. split; [exact (proj1 R)|exact (proj1 LI)].
Qed.
Lemma step_stays : forall args s, stays s (fst (handle_step args s)).
Proof.
  intros args s SD. pose proof SD as [R OK]. destruct OK as [RO [SO MO]].
  destruct (read_memory_block (sim_cpu s) (even_pc (sim_cpu s)) 4) as [code|] eqn:RB.
  - pose proof (block_is_bytes _ _ _ _ MO RB) as B. pose proof (C32_listing_proof Py2 (sim_tree s) code (even_pc (sim_cpu s)) B (proj2 R)) as LI.
    destruct (disasm Py2 (sim_tree s) code (even_pc (sim_cpu s))) as [[t l] r] eqn:D. destruct LI as [MT LI].
    rewrite (step_listing s args code t l r RO RB D).
    assert (ST : sound (with_tree s t)) by (split; [split; [exact (proj1 R)|exact MT]|repeat split; try assumption; apply SO]).
    assert (PS : forall x, sound (fst (print x (with_tree s t))) /\ layout (sim_cpu (fst (print x (with_tree s t)))) = layout (sim_cpu s)).
    { intros x. destruct (proj1 (print_stays x (with_tree s t)) ST) as [A1 A2]. split; [exact A1|exact A2]. }
    destruct r as [u|e]; [|destruct e; first [exact (PS _) | split; [exact ST|reflexivity]]].
    destruct l as [|i l]; [exact (PS _)|].
    assert (DI : decode_bytes Py2 code (even_pc (sim_cpu s)) = Ok i) by (inversion LI; subst; assumption).
    assert (FB : from_bytes Py2 i) by (exists code, (even_pc (sim_cpu s)); now split).
    destruct (C60_repeatable_proof Py2 i FB) as [ops [text [cm F]]]. destruct (F (mkfmt None [])) as [F1 _]. rewrite F1.
    destruct (C60_execution_proof Py2 (sim_cpu s) (mkfmt None []) i _ _ _ F1) as [ops' [_ EX]].
    destruct (C40_execute_proof Py2 (sim_cpu s) i (proj2 SD) FB) as [CO LA].
    destruct (execute Py2 (sim_cpu s) i) as [st x] eqn:E0. rewrite EX. rewrite print_say by exact (proj1 R).
    cbn [fst s_cpu sim_cpu] in *. split; [|exact LA]. split; [split; [reflexivity|exact MT]|exact CO].
  - destruct (pc_value _ RO) as [b [P V]]. assert (E : handle_step args s = (s, Fail (Raised TypeError))).
    { unfold handle_step, sbind, the_cpu, slift. rewrite P, V. unfold block, sbind, the_cpu. rewrite RB. reflexivity. }
    rewrite E. now split.
Qed.
Lemma registers_stays : good stays handled dump_registers.
Proof.
  intros s. destruct (registers_inspects s) as [_ G]. split; [|exact G]. intros SD. destruct (registers_text s SD) as [s' [E P]]. rewrite E. cbn [fst].
  destruct (printed_ready _ _ _ (proj1 SD) P) as [R C]. rewrite C. split; [|reflexivity]. split; [exact R|rewrite C; exact (proj2 SD)].
Qed.
Lemma convert_stays : forall t, good stays handled (convert_value t).
Proof. intros t. apply good_convert; [exact stays_refl|exact stays_trans|auto|intros; apply print_stays]. Qed.
Lemma wreg_stays : forall args s, (forall r v more, args = r :: v :: more -> word_argument v) -> stays s (fst (handle_write_reg args s)).
Proof.
  intros [|a [|v l]] s N; try apply stays_refl. specialize (N a v l eq_refl). cbn [handle_write_reg]. cbv zeta. intros SD. unfold sbind.
  destruct (convert_stays v s) as [CS _]. specialize (N s). destruct (convert_value v s) as [s1 [x|e]]; cbn [fst] in *; [|exact (CS SD)].
  specialize (N s1 x SD eq_refl). destruct (CS SD) as [[R [RO [SO MO]]] LA]. unfold the_cpu, set_cpu. cbn [fst sim_cpu].
  split; [|exact LA]. split; [exact R|]. cbn [sim_cpu]. unfold write_register. destruct (register_name_to_index (RName (lower a))) as [k|].
  - split; [now apply regs_ok_write|]. split; [now apply sp_ok_write|exact MO].
  - split; [intros j Hj; rewrite mock_write_none; now apply RO|]. split; [unfold sp_ok, reg; rewrite !mock_write_none; exact SO|exact MO].
Qed.
Lemma run_stays : forall name args, ~ In name names_exit -> (In name names_disasm -> parse_args args <> None) ->
  (name = "wreg" -> forall r v more, args = r :: v :: more -> word_argument v) -> good stays handled (run_name name args).
Proof.
  intros name args X D W. apply good_run; try assumption; try exact stays_refl; try exact stays_trans; auto.
  - intros t s. apply print_stays.
  - intros s. now apply stays_same.
  - intros data a w s SD. destruct (dump_stays data w a 0 true s) as [C [T F]]; [intros _; apply SD|]. apply (stays_same s _ C T F SD).
  - exact registers_stays.
  - intros s b n data a. apply tree_stays.
  - intros s. now apply stays_same.
  - intros C. apply changing_cases; [exact C| | |].
    + intros w Hw. apply good_write; try assumption; try exact stays_refl; try exact stays_trans; auto; [intros; apply print_stays|]. intros a data s c'. apply write_stays.
    + intros s. split; [apply step_stays|apply step_grows].
    + intros E s. split; [apply wreg_stays; now apply W|apply wreg_grows].
Qed.

(*@doc C71: every command that does not write more than 32 bits into a register leaves the
machine well formed (all registers 32 bits wide, stack pointers aligned and equal, memory
complete), the same addresses mapped, and the cursor at the beginning of a line.  Missing:
[wreg] with larger numbers (C71_wide_refuted). @*)
Lemma C71_sound_partial_proof : forall cmd s, sound s -> narrow cmd ->
  sound (fst (process_command cmd s)) /\ layout (sim_cpu (fst (process_command cmd s))) = layout (sim_cpu s).
Proof.
  intros cmd s SD N.
  assert (D : stays s (fst (dispatch cmd s))).
  { apply (dispatch_good stays cmd s stays_refl). intros w args SP ST X DI. apply run_stays; try assumption. intros E r v more ->. exact (N w r v more SP E). }
  assert (P : stays s (fst (process_command cmd s))).
  { apply (process_good stays cmd s stays_trans); try exact D; [intros; apply print_stays|intros; now apply stays_same|intros; now apply stays_same]. }
  exact (P SD).
Qed.
(*@ex
Example C71_sound_partial_ex : narrow "step" /\ on_sim ex_state (fun s => sim_soft (fst (process_command "step" s)) = false).
Proof.
  split; [|vm_compute; reflexivity]. intros w r v more H E. apply C71_words_proof in H. vm_compute in H. discriminate H.
Qed.
@*)

(*@doc C71 fails for [wreg] with larger numbers: afterwards the register holds more than
32 bits, and the machine works on with a 33-bit register. @*)
Lemma C71_wide_refuted_proof : exists cmd, on_sim cpu_new (fun s => reg (sim_cpu (fst (process_command cmd s))) 0 = 2 ^ 32 + 5 /\
  out_text (fst (process_command "r0" (fst (process_command cmd s)))) = the_line "r0 = 0x100000005 (4294967301)").
Proof. exists "wreg r0 0x100000005". vm_compute. split; reflexivity. Qed.

(*@doc C71: whole sessions.  From a sound state, after any lines without writes of more
than 32 bits, the state is sound and the same addresses are mapped; the session ends
normally at the end of the input, unless a command left the console. @*)
Lemma C71_session_partial_proof : forall lines last s, sound s -> narrow last ->
  (forall line r, In line lines -> trims line r -> narrow r /\ forall cs, commands cs r -> Forall narrow cs) ->
  let s' := fst (console_run last lines s) in sound s' /\ layout (sim_cpu s') = layout (sim_cpu s) /\ (exists l, sim_out s' = sim_out s ++ l) /\
  match snd (console_run last lines s) with Fail (Raised _) | Fail (Tool _) => False | _ => True end.
Proof.
  assert (ON : forall cmd s, match snd (process_command cmd s) with Fail (Raised _) | Fail (Tool _) => False | _ => True end).
  { intros cmd s. pose proof (C71_goes_on_proof cmd s) as G. destruct (snd (process_command cmd s)) as [|[]]; try exact I; exact G. }
  assert (SEQ : forall cs s, Forall narrow cs -> sound s -> let r := fold_right (fun cmd k => process_command cmd ;; k) (sret tt) cs s in
    sound (fst r) /\ layout (sim_cpu (fst r)) = layout (sim_cpu s) /\ grows s (fst r) /\ match snd r with Fail (Raised _) | Fail (Tool _) => False | _ => True end).
  { induction cs as [|cmd cs IH]; intros s F SD; cbn [fold_right]; cbv zeta.
    - split; [exact SD|]. split; [reflexivity|]. split; [apply grows_refl|exact I].
    - inversion F as [|? ? NC F']; subst. destruct (C71_sound_partial_proof cmd s SD NC) as [S1 L1]. pose proof (C69_output_proof cmd s) as G1. pose proof (ON cmd s) as O1.
      unfold sbind. destruct (process_command cmd s) as [s1 [u|e]]; cbn [fst snd] in *.
      + destruct (IH s1 F' S1) as [S2 [L2 [G2 O2]]]. split; [exact S2|]. split; [etransitivity; [exact L2|exact L1]|]. split; [eapply grows_trans; [exact G1|exact G2]|exact O2].
      + split; [exact S1|]. split; [exact L1|]. split; [exact G1|exact O1]. }
  assert (CM : forall r, exists cs, commands cs r /\ split ";" r = cs).
  { intros r. assert (D : forall n l, (List.length l <= n)%nat -> exists cs, commands cs (of_chars l)).
    { induction n as [|n IH]; intros l L.
      - destruct l; [|cbn in L; lia]. exists [""]. apply commands_last. intros [].
      - assert (E : forall l, no_char ";" (of_chars l) \/ exists a b, l = a ++ ";"%char :: b /\ no_char ";" (of_chars a)).
        { clear. induction l as [|c l [N|(a & b & -> & N)]].
          - left. intros [].
          - destruct (ascii_dec c ";") as [->|C]; [right; exists [], l; split; [reflexivity|intros []]|left]. intros [E|I]; [congruence|now apply N].
          - destruct (ascii_dec c ";") as [->|C]; [right; exists [], (a ++ ";"%char :: b); split; [reflexivity|intros []]|right].
            exists (c :: a), b. split; [reflexivity|]. intros [E|I]; [congruence|now apply N]. }
        destruct (E l) as [N|(a & b & -> & N)]; [exists [of_chars l]; now apply commands_last|].
        destruct (IH b) as [cs H]; [rewrite app_length in L; cbn in L; lia|]. exists (of_chars a :: cs).
        replace (of_chars (a ++ ";"%char :: b)) with (of_chars a +++ String ";" (of_chars b)); [now apply commands_cons|].
        rewrite <- (of_chars_chars (_ +++ _)), chars_app. cbn [chars]. now rewrite !chars_of_chars. }
    destruct (D _ (chars r) (le_n _)) as [cs H]. rewrite of_chars_chars in H. exists cs. split; [exact H|].
    clear - H. unfold split. induction H as [t N|t ts rest N H IH].
    - rewrite split_on_none; [cbn; now rewrite of_chars_chars|]. apply Forall_forall. intros x I. destruct (Ascii.eqb_spec x ";"); [subst; contradiction|reflexivity].
    - rewrite chars_app. cbn [chars]. rewrite split_on_app; [cbn [map]; now rewrite IH, of_chars_chars|].
      apply Forall_forall. intros x I. destruct (Ascii.eqb_spec x ";"); [subst; contradiction|reflexivity]. }
  induction lines as [|line lines IH]; intros last s SD NL H; cbv zeta.
  - cbn [console_run]. split; [|split; [reflexivity|split; [eexists; reflexivity|exact I]]]. split; [split; [reflexivity|apply SD]|apply SD].
  - assert (H' : forall l r, In l lines -> trims l r -> narrow r /\ forall cs, commands cs r -> Forall narrow cs) by (intros l r I; apply H; now right).
    assert (STEP : forall (m : act unit) last', narrow last' -> (let r := m s in sound (fst r) /\ layout (sim_cpu (fst r)) = layout (sim_cpu s) /\ grows s (fst r) /\ match snd r with Fail (Raised _) | Fail (Tool _) => False | _ => True end) ->
      let s' := fst ((m ;; console_run last' lines) s) in sound s' /\ layout (sim_cpu s') = layout (sim_cpu s) /\ (exists l, sim_out s' = sim_out s ++ l) /\
      match snd ((m ;; console_run last' lines) s) with Fail (Raised _) | Fail (Tool _) => False | _ => True end).
    { intros m last' NL' [S1 [L1 [G1 O1]]]. unfold sbind. destruct (m s) as [s1 [[]|e]]; cbn [fst snd] in *.
      - destruct (IH last' s1 S1 NL' H') as [S2 [L2 [G2 O2]]]. split; [exact S2|]. split; [etransitivity; [exact L2|exact L1]|]. split; [eapply grows_trans; [exact G1|exact G2]|exact O2].
      - split; [exact S1|]. split; [exact L1|]. split; [exact G1|exact O1]. }
    destruct (C67_lines_proof last s) as [_ [LT [LB DEC]]]. destruct (DEC line) as [B|[r T]].
    + rewrite (LB line lines B). destruct (String.eqb last ""); [now apply IH|]. apply STEP; [exact NL|].
      destruct (C71_sound_partial_proof last s SD NL) as [S1 L1]. split; [exact S1|]. split; [exact L1|]. split; [apply C69_output_proof|apply ON].
    + rewrite (LT line r lines T). destruct (H line r (or_introl eq_refl) T) as [NR NC]. apply STEP; [exact NR|].
      destruct (CM r) as [cs [CS SPL]]. unfold process_command_line. rewrite SPL. exact (SEQ cs s (NC cs CS) SD).
Qed.
(*@ex
Example C71_session_partial_ex : on_sim ex_state (fun s => snd (console_run "" ["s"; "  "; "r0; reg"; "d"] s) = Done tt /\ snd (console_run "" ["s"; "quit"; "r0"] s) = Fail ToolExit).
Proof. vm_compute. split; reflexivity. Qed.
@*)

(*@doc C71: a program started from any binary and given any such lines is sound to the
end, with the memory map of the start. @*)
Lemma C71_main_partial_proof : forall t binary lines, bytes binary -> module_tree t ->
  (forall line r, In line lines -> trims line r -> narrow r /\ forall cs, commands cs r -> Forall narrow cs) ->
  let s' := fst (sim_main t binary lines) in sound s' /\
  layout (sim_cpu s') = [(0, flash_size binary - 1); (ram_start, ram_start + ram_size binary - 1)].
Proof.
  intros t binary lines B M H. destruct (C65_start_proof t binary B M) as (s0 & l & E & R & _ & _ & _ & OK & ME & _). cbv zeta. unfold sim_main. rewrite E.
  destruct (C71_session_partial_proof lines "" s0) as [S1 [L1 _]]; [split; assumption| |exact H|].
  - intros w r v more SP. exfalso. apply C71_words_proof in SP. vm_compute in SP. discriminate SP.
  - split; [exact S1|]. rewrite L1. unfold layout. rewrite ME. reflexivity.
Qed.
(*@ex
Example C71_main_partial_ex : match DECODER_TREE with
  | Ok t => let s := fst (sim_main t [0; 4; 0; 32; 8; 0; 0; 0; 1; 32; 64; 28] ["s"; ""; "r0"]) in
      out_text s = the_line "CPU model reset." +++ the_line "PC = 0x00000008" +++ the_line "SP = 0x20000400" +++
        the_line "0x00000008:  2001         movs    r0, #1" +++ the_line "0x0000000a:  1c40         adds    r0, r0, #1" +++ the_line "r0 = 0x00000002 (2)" +++ the_line ""
  | Err _ => False
  end.
Proof. vm_compute. reflexivity. Qed.
@*)

(** ** Disassembly *)
Lemma repeated_c : forall l, forallb (fun a => Ascii.eqb a "c") l = true <-> of_chars l = repeated "c" (List.length l).
Proof.
  induction l as [|x l IH]; cbn [forallb of_chars List.length repeated]; [tauto|]. rewrite andb_true_iff, Ascii.eqb_eq, IH. split; [intros [-> ->]; reflexivity|].
  intros E. injection E as -> ->. split; reflexivity.
Qed.
Lemma repeated_length : forall c n, List.length (chars (repeated c n)) = n.
Proof. induction n as [|n IH]; cbn; [reflexivity|now rewrite IH]. Qed.
Lemma repeated_chars : forall c n, chars (repeated c n) = repeat c n.
Proof. induction n as [|n IH]; cbn; [reflexivity|now rewrite IH]. Qed.
Lemma is_prefix_spec : forall a b, is_prefix a b = true <-> exists c, b = a ++ c.
Proof.
  induction a as [|x a IH]; intros b; cbn [is_prefix].
  - split; [intros _; now exists b|reflexivity].
  - destruct b as [|y b]; [split; [discriminate|intros [c E]; discriminate E]|]. rewrite andb_true_iff, Ascii.eqb_eq, IH. split.
    + intros [-> [c ->]]. now exists c.
    + intros [c E]. injection E as -> ->. split; [reflexivity|now exists c].
Qed.
Lemma prefixes_center : forall l, l <> [] -> is_prefix l (chars "center") = true -> In (of_chars l) ["c"; "ce"; "cen"; "cent"; "cente"; "center"].
Proof.
  intros l N H. apply is_prefix_spec in H. destruct H as [r E].
  assert (L : l = firstn (List.length l) (chars "center")) by (rewrite E, firstn_app, Nat.sub_diag, firstn_all; cbn; now rewrite app_nil_r).
  assert (LE : (List.length l <= 6)%nat) by (apply (f_equal (@List.length ascii)) in E; rewrite app_length in E; cbn in E; lia).
  rewrite L. destruct l as [|x l]; [congruence|]. cbn [List.length] in *. clear - LE. assert (LE' : (List.length l <= 5)%nat) by lia. revert LE'. generalize (List.length l). clear.
  intros n LE. do 6 (destruct n as [|n]; [vm_compute; tauto|]). lia.
Qed.
Lemma kind_spec : forall t,
  match arg_kind t with
  | Separator => t = "--"
  | Center => center_option t
  | Positional => plain t
  | BadOption => t <> "--" /\ ~ center_option t /\ ~ plain t
  end.
Proof.
  assert (NP : forall c t, ~ plain (String "-" (String c t))).
  { intros c t [E|E]; [discriminate E|apply E; eexists; reflexivity]. }
  intros t. destruct t as [|c t]; [right; intros [r E]; discriminate E|]. destruct (ascii_dec c "-") as [->|C].
  2:{ assert (K : arg_kind (String c t) = Positional) by (unfold arg_kind; cbn [chars]; destruct c as [[] [] [] [] [] [] [] []]; try reflexivity; congruence).
      rewrite K. right. intros [r E]. injection E as -> _. congruence. }
  destruct t as [|d t]; [left; reflexivity|]. destruct (ascii_dec d "-") as [->|D].
  - destruct t as [|x t]; [reflexivity|].
    assert (K : arg_kind (String "-" (String "-" (String x t))) = if is_prefix (chars (String x t)) (chars "center") then Center else BadOption) by reflexivity.
    rewrite K. destruct (is_prefix (chars (String x t)) (chars "center")) eqn:P.
    + right. apply prefixes_center in P; [|discriminate]. rewrite of_chars_chars in P. cbn [In] in P |- *. repeat (destruct P as [<-|P]; [tauto|]). destruct P.
    + split; [discriminate|]. split; [|apply NP]. intros [[n E]|I].
      * cbn in E. discriminate E.
      * cbn [In] in I. repeat (destruct I as [E|I]; [injection E as <- <-; vm_compute in P; discriminate P|]). destruct I.
  - assert (K : arg_kind (String "-" (String d t)) = if forallb (fun a => Ascii.eqb a "c") (d :: chars t) then Center else BadOption).
    { unfold arg_kind. cbn [chars]. destruct d as [[] [] [] [] [] [] [] []]; try reflexivity; congruence. }
    rewrite K. destruct (forallb (fun a => Ascii.eqb a "c") (d :: chars t)) eqn:F.
    + left. apply repeated_c in F. cbn [of_chars List.length] in F. rewrite of_chars_chars in F. exists (List.length (chars t)). rewrite F. reflexivity.
    + split; [intros E; injection E as -> _; congruence|]. split; [|apply NP]. intros [[n E]|I].
      * cbn [String.append repeated] in E. injection E as -> ->. assert (X : forallb (fun a => Ascii.eqb a "c") ("c"%char :: chars (repeated "c" n)) = true).
        { apply repeated_c. cbn [of_chars List.length repeated]. rewrite of_chars_chars, repeated_length. reflexivity. }
        congruence.
      * cbn [In] in I. repeat (destruct I as [E|I]; [injection E as E _; congruence|]). destruct I.
Qed.
Lemma kinds_disjoint : forall t, (center_option t -> arg_kind t = Center) /\ (plain t -> arg_kind t = Positional).
Proof.
  intros t. split.
  - intros [[n ->]|I].
    + unfold arg_kind. cbn [String.append chars repeated]. 
      assert (F : forallb (fun a => Ascii.eqb a "c") ("c"%char :: chars (repeated "c" n)) = true) by (apply repeated_c; cbn [of_chars List.length repeated]; rewrite of_chars_chars, repeated_length; reflexivity).
      rewrite F. reflexivity.
    + cbn [In] in I. repeat (destruct I as [<-|I]; [reflexivity|]). destruct I.
  - intros [->|N]; [reflexivity|]. unfold arg_kind. destruct t as [|c t]; [reflexivity|]. cbn [chars]. destruct (ascii_dec c "-") as [->|C]; [exfalso; apply N; now exists t|].
    destruct c as [[] [] [] [] [] [] [] []]; try reflexivity; congruence.
Qed.

(*@doc C72, options: -c and --center, also abbreviated, repeated and anywhere among the
arguments, center the listing; behind -- everything is an argument; anything else that
starts with a dash ends the program. @*)
Lemma C72_options_proof : forall args,
  (forall center other, options args center other <-> parse_args args = Some (center, other)) /\
  (parse_args args = None -> forall s, handle_disasm args s = (s, Fail SysExit)).
Proof.
  assert (A : forall args center other, options args center other -> parse_args args = Some (center, other)).
  { intros args center other H. induction H as [|args|t args b other C H IH|t args b other P H IH]; cbn [parse_args]; try reflexivity.
    - destruct (kinds_disjoint t) as [K _]. rewrite (K C), IH. reflexivity.
    - destruct (kinds_disjoint t) as [_ K]. rewrite (K P), IH. reflexivity. }
  assert (B : forall args center other, parse_args args = Some (center, other) -> options args center other).
  { induction args as [|t args IH]; intros center other E; cbn [parse_args] in E; [injection E as <- <-; constructor|].
    pose proof (kind_spec t) as K. destruct (arg_kind t).
    - destruct (parse_args args) as [[b o]|]; [|discriminate E]. cbn in E. injection E as <- <-. apply options_plain; [exact K|now apply IH].
    - destruct (parse_args args) as [[b o]|]; [|discriminate E]. cbn in E. injection E as <- <-. eapply options_center; [exact K|now apply IH].
    - injection E as <- <-. subst t. apply options_stop.
    - discriminate E. }
  intros args. split; [intros center other; split; [apply A|apply B]|]. intros N s. unfold handle_disasm. rewrite N. reflexivity.
Qed.
(*@ex
Example C72_options_ex : options ["r0"; "--cen"; "8"] true ["r0"; "8"] /\ parse_args ["r0"; "-4"] = None.
Proof. split; [apply C72_options_proof; vm_compute; reflexivity|vm_compute; reflexivity]. Qed.
@*)

Lemma lines_ok : forall pc l a data r, listing Py2 a data l r -> bytes data -> 0 <= a -> a + Z.of_nat (List.length data) <= 2 ^ 32 ->
  forall f, exists t, disasm_lines pc f l = Ok t /\ listing_text pc l t.
Proof.
  intros pc l a data r H. induction H as [a|a data NE D L|a data e NE D L|a data i l r D H IH]; intros B A0 A1 f; try (exists ""; split; [reflexivity|constructor]).
  assert (FB : from_bytes Py2 i) by (exists data, a; now split). destruct (C60_repeatable_proof Py2 i FB) as [ops [text [cm F]]].
  destruct (C30_bytes_proof Py2 data a i B D) as (_ & AD & _ & SZ). pose proof (size_pos i).
  destruct (IH (bytes_skipn _ _ B) ltac:(lia)) with (f := mkfmt None cm) as [t [E T]].
  { rewrite skipn_length. lia. }
  cbn [disasm_lines]. destruct (F f) as [F1 _]. rewrite F1. cbn [bind]. rewrite E. cbn [bind]. eexists. split; [reflexivity|].
  assert (X : forall x, listing_text pc (i :: l) (listing_line pc i text +++ t) -> x = listing_line pc i text +++ t -> listing_text pc (i :: l) x) by (intros x Q ->; exact Q).
  apply X.
  - constructor; [|exact T]. unfold text_of. destruct (F (mkfmt None [])) as [F2 _]. rewrite F2. reflexivity.
  - unfold listing_line, the_line, fmt_addr, newline. rewrite AD, fmt_hexn by (try lia; change (16 ^ 8) with (2 ^ 32); lia). change (Z.to_nat 8) with 8%nat.
    rewrite !app_assoc_s. reflexivity.
Qed.
Lemma listing_text_line : forall pc l t, listing_text pc l t -> l <> [] -> exists x, t = the_line x.
Proof.
  intros pc l t H. induction H as [|i text l t T H IH]; intros N; [congruence|]. destruct l as [|j l].
  - inversion H; subst. rewrite app_nil_s. unfold listing_line. eauto.
  - destruct IH as [x ->]; [discriminate|]. exists (listing_line pc i text +++ x). unfold the_line. now rewrite app_assoc_s.
Qed.
Lemma last_char_line : forall x, last_char (the_line x) = Some "010"%char.
Proof. intros x. unfold the_line. rewrite last_char_app. reflexivity. Qed.
Lemma line_removelast : forall x, of_chars (removelast (chars (the_line x))) = x.
Proof. intros x. unfold the_line. rewrite chars_app. cbn [chars]. rewrite removelast_last. apply of_chars_chars. Qed.
Lemma land_even : forall v, Z.land v (Z.lnot 1) = v - v mod 2.
Proof. exact land_lnot1. Qed.

(** The arguments. *)
Lemma disasm_args_ok : forall s other a n pre, sound s -> disasm_args (sim_cpu s) other a n pre ->
  exists s', printed s pre s' /\ forall center args, parse_args args = Some (center, other) ->
  handle_disasm args s = match read_memory_block (sim_cpu s) (first_address center a n) n with
    | Some data => print_disasm data (first_address center a n) s'
    | None => (s', Fail (Raised TypeError))
    end.
Proof.
  intros s other a n pre [R OK] H.
  assert (G : exists s', printed s pre s' /\ forall (k : Z -> Z -> act unit), 
    (do* addr := convert_value (List.nth 0 (match other with [] => ["pc"] | _ => other end) "pc") in
     do* count := match match other with [] => ["pc"] | _ => other end with _ :: n :: _ => convert_value n | _ => sret 6 end in k addr count) s = k a n s').
  { destruct H as [a pre A|x a pre A|x a pre y n pre' more A A'].
    - destruct (C68_argument_proof s "pc" a pre R OK A) as [s1 [E P]]. exists s1. split; [exact P|]. intros k. cbn [List.nth]. unfold sbind. rewrite E. reflexivity.
    - destruct (C68_argument_proof s x a pre R OK A) as [s1 [E P]]. exists s1. split; [exact P|]. intros k. cbn [List.nth]. unfold sbind. rewrite E. reflexivity.
    - destruct (C68_argument_proof s x a pre R OK A) as [s1 [E P]]. destruct (printed_ready _ _ _ R P) as [R1 C1].
      assert (OK1 : cpu_ok (sim_cpu s1)) by (rewrite C1; exact OK). assert (A1 : argument (sim_cpu s1) y n pre') by (rewrite C1; exact A').
      destruct (C68_argument_proof s1 y n pre' R1 OK1 A1) as [s2 [E' P']]. exists s2. split; [eapply printed_trans; eassumption|]. intros k. cbn [List.nth]. unfold sbind. rewrite E, E'. reflexivity. }
  destruct G as [s' [P G]]. exists s'. split; [exact P|]. intros center args E. unfold handle_disasm. rewrite E. cbv zeta. rewrite G.
  rewrite land_even. change ((if center then a - n / 2 else a) - (if center then a - n / 2 else a) mod 2) with (first_address center a n).
  unfold sbind, the_cpu. destruct (printed_ready _ _ _ R P) as [_ C]. rewrite C. destruct (read_memory_block (sim_cpu s) (first_address center a n) n); reflexivity.
Qed.

(*@doc C72: [disasm] lists the instructions in the given number of bytes from the given
even address on, each with its address, a star at the pc and its text; an undefined
instruction is announced in front of what comes before it; other exceptions of the
decoder come out and nothing is listed; without an instruction the command ends with
IndexError, outside the memory with TypeError. @*)
Lemma C72_disasm_proof : forall s args center other a n pre, sound s -> options args center other -> disasm_args (sim_cpu s) other a n pre ->
  let c := sim_cpu s in let b := first_address center a n in
  (unmapped c b -> exists s', handle_disasm args s = (s', Fail (Raised TypeError)) /\ printed s pre s') /\
  (forall i m, located c b i m -> 0 <= n -> 0 <= b -> b + n <= 2 ^ 32 ->
    let data := firstn (Z.to_nat n) (skipn (Z.to_nat (b - m_start m)) (m_data m)) in
    forall l r, listing Py2 b data l r -> exists t s', listing_text (even_pc c) l t /\
      match r with
      | Ok _ => if match l with [] => true | _ => false end then handle_disasm args s = (s', Fail (Raised IndexError)) /\ decoded s pre s'
                else handle_disasm args s = (s', Done tt) /\ decoded s (pre +++ t) s'
      | Err UndefinedInstructionError =>
        if match l with [] => true | _ => false end then handle_disasm args s = (s', Fail (Raised IndexError)) /\ decoded s (pre +++ the_line "Undefined instruction") s'
        else handle_disasm args s = (s', Done tt) /\ decoded s (pre +++ the_line "Undefined instruction" +++ t) s'
      | Err e => handle_disasm args s = (s', Fail (Raised e)) /\ decoded s pre s'
      end).
Proof.
  intros s args center other a n pre SD O DA c b. apply C72_options_proof in O. destruct (disasm_args_ok s other a n pre SD DA) as [s1 [P G]].
  pose proof (G center args O) as G1. fold b c in G1. clear G. pose proof SD as [R OK]. destruct (printed_ready _ _ _ R P) as [R1 C1].
  split.
  - intros U. exists s1. split; [|exact P]. rewrite G1. unfold read_memory_block. now rewrite find_mem_unmapped.
  - intros i m L N0 B0 B1 data l r LI. destruct OK as [RO [SO MO]]. fold c in RO, SO, MO.
    assert (RB : read_memory_block c b n = Some data) by exact (C34_block_read_proof c b n i m MO L N0). rewrite RB in G1.
    pose proof (block_is_bytes _ _ _ _ MO RB) as BD.
    assert (LEN : Z.of_nat (List.length data) <= n) by (unfold data; rewrite firstn_length; lia).
    rewrite print_disasm_eq in G1. rewrite C1 in G1. fold c in G1. destruct (pc_value c RO) as [v [PV EV]]. rewrite PV, EV in G1.
    pose proof (C32_listing_proof Py2 (sim_tree s1) data b BD (proj2 R1)) as LI'. destruct (disasm Py2 (sim_tree s1) data b) as [[tr l'] r']. destruct LI' as [MT LI'].
    destruct (C32_unique_proof _ _ _ _ _ _ _ LI LI') as [<- <-].
    destruct (lines_ok (even_pc c) l b data r LI BD B0 ltac:(lia) (mkfmt None [])) as [t [E T]]. exists t.
    assert (DEC : forall txt s2, printed (with_tree s1 tr) txt s2 -> decoded s (pre +++ txt) s2).
    { intros txt s2 P2. exists tr. split; [exact MT|]. apply (printed_trans _ pre (with_tree s1 tr)); [|exact P2].
      destruct P as [Q1 [Q2 [Q3 Q4]]]. repeat split; assumption. }
    assert (SF : sim_soft (with_tree s1 tr) = false) by exact (proj1 R1).
    assert (NIL : printed (with_tree s1 tr) "" (with_tree s1 tr)).
    { pose proof (say_printed [] (with_tree s1 tr)) as Q. now rewrite say_nil in Q by exact SF. }
    assert (DN : decoded s pre (with_tree s1 tr)) by (rewrite <- (app_nil_s pre); now apply DEC).
    unfold disasm_tail in G1. unfold sbind at 1 in G1. rewrite E in G1. cbn [slift] in G1.
    assert (EMP : forall s0, l = [] -> (match last_char t with None => sfail (Raised IndexError) | Some c0 => print (if Ascii.eqb c0 "010" then of_chars (removelast (chars t)) else t) end) s0 = (s0, Fail (Raised IndexError))).
    { intros s0 ->. inversion T; subst. reflexivity. }
    assert (TXT : forall s0, l <> [] -> sim_soft s0 = false -> exists s2, (match last_char t with None => sfail (Raised IndexError) | Some c0 => print (if Ascii.eqb c0 "010" then of_chars (removelast (chars t)) else t) end) s0 = (s2, Done tt) /\ printed s0 t s2).
    { intros s0 N F. destruct (listing_text_line _ _ _ T N) as [x ->]. rewrite last_char_line. change (Ascii.eqb "010" "010") with true. cbn [orb]. rewrite line_removelast.
      rewrite print_say by exact F. eexists. split; [reflexivity|apply printed_line]. }
    destruct r as [u|e].
    + unfold sbind, sret in G1. destruct l as [|x l].
      * rewrite EMP in G1 by reflexivity. eexists. split; [exact T|]. split; [exact G1|exact DN].
      * destruct (TXT (with_tree s1 tr) ltac:(discriminate) SF) as [s2 [E2 P2]]. rewrite E2 in G1. exists s2. split; [exact T|]. split; [exact G1|now apply DEC].
    + assert (UN : e = UndefinedInstructionError \/ e <> UndefinedInstructionError) by (destruct e; (left; reflexivity) || (right; discriminate)).
      destruct UN as [->|NE].
      * unfold sbind in G1. rewrite print_say in G1 by exact SF. pose proof (printed_line "Undefined instruction" (with_tree s1 tr)) as PU.
        destruct l as [|x l].
        -- rewrite EMP in G1 by reflexivity. eexists. split; [exact T|]. split; [exact G1|now apply DEC].
        -- destruct (TXT (say ["Undefined instruction"; newline] (with_tree s1 tr)) ltac:(discriminate) eq_refl) as [s2 [E2 P2]]. rewrite E2 in G1.
           exists s2. split; [exact T|]. split; [exact G1|]. apply DEC. eapply printed_trans; eassumption.
      * exists (with_tree s1 tr). split; [exact T|]. destruct e; try congruence; (split; [exact G1|exact DN]).
Qed.
(*@ex
Example C72_disasm_ex : on_sim (ex_code [1; 32; 64; 28; 0; 191; 0; 182; 0; 191]) (fun s =>
  out_text (fst (process_command "d" s)) = the_line "pc = 0x00000000" +++ the_line "0x00000000:* 2001         movs    r0, #1" +++ the_line "0x00000002:  1c40         adds    r0, r0, #1" +++ the_line "0x00000004:  bf00         nop     " /\
  out_text (fst (process_command "d -c 5 4" s)) = the_line "0x00000002:  1c40         adds    r0, r0, #1" +++ the_line "0x00000004:  bf00         nop     " /\
  out_text (fst (process_command "d 4 6" s)) = the_line "Undefined instruction" +++ the_line "0x00000004:  bf00         nop     ").
Proof. vm_compute. repeat split; reflexivity. Qed.
@*)

(*@doc C70, log: it wants one of five levels, in any case, and prints nothing then; without
a level, or with another one, it prints an error.  Nothing else changes. @*)
Lemma C70_log_proof : forall args s, ready s ->
  match args with
  | [] => exists s', handle_log args s = (s', Done tt) /\ printed s (the_line "Error: no log level provided") s'
  | a :: _ =>
    (In (lower a) ["debug"; "info"; "warning"; "error"; "critical"] -> handle_log args s = (s, Done tt)) /\
    (~ In (lower a) ["debug"; "info"; "warning"; "error"; "critical"] ->
      handle_log args s = (mksim (sim_cpu s) (sim_tree s) (sim_out s ++ [LevelError; Txt newline]) false, Done tt))
  end.
Proof.
  intros args s R. destruct args as [|a args].
  - cbn [handle_log]. rewrite print_say by exact (proj1 R). eexists. split; [reflexivity|apply printed_line].
  - unfold handle_log. change LEVELS with ["debug"; "info"; "warning"; "error"; "critical"]. destruct (existsb (String.eqb (lower a)) ["debug"; "info"; "warning"; "error"; "critical"]) eqn:E.
    + split; [reflexivity|]. intros N. apply existsb_exists in E. destruct E as [x [I X]]. apply String.eqb_eq in X. subst x. contradiction.
    + split.
      * intros I. assert (X : existsb (String.eqb (lower a)) ["debug"; "info"; "warning"; "error"; "critical"] = true) by (apply existsb_exists; exists (lower a); split; [exact I|apply String.eqb_refl]). congruence.
      * intros _. destruct s as [c t o so]. destruct R as [F _]. cbn in F. subst so. unfold sbind, print_item, print_end. cbn. rewrite <- app_assoc. reflexivity.
Qed.
(*@ex
Example C70_log_ex : on_sim cpu_new (fun s => out_text (fst (process_command "log DeBug" s)) = "" /\ sim_out (fst (process_command "log all" s)) = [LevelError; Txt newline]).
Proof. vm_compute. split; reflexivity. Qed.
@*)
