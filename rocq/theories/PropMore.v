(** Property statements; each is proved in MoreThms.v under the same name.
    Written by tools/genprops.py. *)
From Coq Require Import Lia.
From Verif Require Import CpuModel BitstringModel SpecBits SpecArm SpecCpu TableModel ExecModel ExecFacts SpecWhole SpecIsa SpecExec SpecMore MoreThms.
Local Open Scope list_scope.
Local Open Scope Z_scope.
Local Open Scope bool_scope.

(** C86: on Python 2, a load multiple of the list, at the address at which a store multiple
    of it has stored, brings back the listed registers, whatever happened in between to the
    registers; the base is written back by either as C50 says.
    Missing: Python 3 (C50_refuted); lists with sp or pc, which no encoding has. *)
Theorem C86_store_load_partial : forall c i j n m v wb wb', cpu_ok c -> gpr n -> gpr m -> half v ->
  Z.testbit v 13 = false -> Z.testbit v 15 = false ->
  is_insn i StoreMultiple [N n; Regs v; Wb wb] -> is_insn j LoadMultiple [N m; Regs v; Wb wb'] ->
  in_one_region c (reg c n) (4 * reg_count v) -> reg c n + 4 * reg_count v <= 2 ^ 32 ->
  exists c1, execute Py2 c i = (mkst c1 i, Ok tt) /\
  forall c2, regs_ok c2 -> c_mem c2 = c_mem c1 -> reg c2 m = reg c n ->
  runs Py2 c2 j (rebased v m wb' (advance (taken v (reg c) (reg c2)) (i_size j))) j.
Proof. exact C86_store_load_partial_proof. Qed.
Print Assumptions C86_store_load_partial.

Example C86_store_load_partial_ex : cpu_ok ex_state /\ half 0x13 /\
  in_one_region ex_state (reg ex_state 3) (4 * reg_count 0x13) /\ reg ex_state 3 + 4 * reg_count 0x13 <= 2 ^ 32 /\
  let c1 := s_cpu (fst (execute Py2 ex_state (an_insn StoreMultiple [N 3; Regs 0x13; Wb true] false))) in
  let c2 := do_cops c1 [CopR 0 (NInt 0); CopR 1 (NInt 0); CopR 4 (NInt 0); CopR 5 (NInt 16)] in
  map (reg_after Py2 c2 (an_insn LoadMultiple [N 5; Regs 0x13; Wb true] false)) [0; 1; 3; 4; 5] = [7; 0x80000001; 28; 0x12345678; 28].
Proof.
  split; [exact ex_state_ok|]. split; [unfold half; lia|]. split; [|split; [vm_compute; discriminate|vm_compute; reflexivity]].
  split; [vm_compute; discriminate|].
  exists 0%nat, (mkmem 0 63 (List.map (fun k => match cell ex_state 0 (Z.of_nat k) with Some b => b | None => 0 end) (List.seq 0 64))).
  intros o O. change (4 * reg_count 0x13) with 12 in *. change (reg ex_state 3) with 16.
  split; [vm_compute; reflexivity|]. split; [unfold in_region; cbn [m_start m_end]; lia|]. intros j m J. inversion J.
Qed.

(** C86: on Python 3 it does not: stmia r3!, {r0, r1, r4} and ldmia r5!, {r0, r1, r4} also
    change r2. *)
Theorem C86_py3_refuted : exists c n m v wb wb', cpu_ok c /\ gpr n /\ gpr m /\ half v /\ Z.testbit v 13 = false /\ Z.testbit v 15 = false /\
  let i := an_insn StoreMultiple [N n; Regs v; Wb wb] false in let j := an_insn LoadMultiple [N m; Regs v; Wb wb'] false in
  let c1 := s_cpu (fst (execute Py3 c i)) in
  snd (execute Py3 c i) = Ok tt /\
  exists c2, c2 = do_cops c1 [CopR 2 (NInt 1); CopR m (NInt (reg c n))] /\ snd (execute Py3 c2 j) = Ok tt /\
    reg_after Py3 c2 j 2 <> rebased v m wb' (advance (taken v (reg c) (reg c2)) (i_size j)) 2.
Proof. exact C86_py3_refuted_proof. Qed.
Print Assumptions C86_py3_refuted.

(** C87: on Python 2, a pop of the list with the pc in the place of lr, when sp and the memory
    are what the push of the list with lr has left, brings back the other registers of the list
    and sp and continues at the address that lr held.
    Missing: Python 3 (C49_refuted). *)
Theorem C87_push_pop_pc_partial : forall c i j u v, cpu_ok c -> half u -> half v ->
  Z.testbit u 13 = false -> Z.testbit u 14 = true -> Z.testbit u 15 = false ->
  Z.testbit v 14 = false -> Z.testbit v 15 = true -> (forall k, 0 <= k < 14 -> Z.testbit v k = Z.testbit u k) ->
  is_insn i Push [Regs u] -> is_insn j Pop [Regs v] ->
  in_one_region c (reg c 13 - 4 * reg_count u) (4 * reg_count u) ->
  exists c1, execute Py2 c i = (mkst c1 i, Ok tt) /\ reg c1 13 = reg c 13 - 4 * reg_count u /\
  forall c2, regs_ok c2 -> c_mem c2 = c_mem c1 -> reg c2 13 = reg c1 13 ->
  runs Py2 c2 j (set (restored v (reg c) (reg c2)) 15 (reg c 14)) j.
Proof. exact C87_push_pop_pc_partial_proof. Qed.
Print Assumptions C87_push_pop_pc_partial.

Example C87_push_pop_pc_partial_ex : cpu_ok ex_state /\ half 0x4011 /\ half 0x8011 /\
  (forall k, 0 <= k < 14 -> Z.testbit 0x8011 k = Z.testbit 0x4011 k) /\
  in_one_region ex_state (reg ex_state 13 - 4 * reg_count 0x4011) (4 * reg_count 0x4011) /\
  let c1 := s_cpu (fst (execute Py2 ex_state (an_insn Push [Regs 0x4011] false))) in
  let c2 := do_cops c1 [CopR 0 (NInt 0); CopR 4 (NInt 0); CopR 14 (NInt 0)] in
  map (reg_after Py2 c2 (an_insn Pop [Regs 0x8011] false)) [0; 4; 13; 14; 15] = [7; 0x12345678; 48; 0; 33].
Proof.
  split; [exact ex_state_ok|]. do 2 (split; [unfold half; lia|]). split.
  { intros k K. change 0x8011 with (Z.lor 0x11 (2 ^ 15)). change 0x4011 with (Z.lor 0x11 (2 ^ 14)).
    rewrite !Z.lor_spec, !Z.pow2_bits_false by lia. reflexivity. }
  split; [|vm_compute; reflexivity]. split; [vm_compute; discriminate|].
  exists 0%nat, (mkmem 0 63 (List.map (fun k => match cell ex_state 0 (Z.of_nat k) with Some b => b | None => 0 end) (List.seq 0 64))).
  intros o O. change (4 * reg_count 0x4011) with 12 in *. change (reg ex_state 13) with 48.
  split; [vm_compute; reflexivity|]. split; [unfold in_region; cbn [m_start m_end]; lia|]. intros j m J. inversion J.
Qed.

(** C87, refuted on Python 3: after push {r4, lr} and pop {r4, pc} execution does not continue
    at the address that lr held. *)
Theorem C87_py3_refuted : exists c i j, cpu_ok c /\ from_bytes Py3 i /\ from_bytes Py3 j /\ is_insn i Push [Regs 0x4010] /\ is_insn j Pop [Regs 0x8010] /\
  let c1 := s_cpu (fst (execute Py3 c i)) in let c2 := s_cpu (fst (execute Py3 c1 j)) in
  snd (execute Py3 c i) = Ok tt /\ snd (execute Py3 c1 j) = Ok tt /\ reg c2 15 <> reg c 14.
Proof. exact C87_py3_refuted_proof. Qed.
Print Assumptions C87_py3_refuted.

(** C88: none of the 16-bit encodings is hidden by the others: for each there is a halfword
    that the decoder turns into an instruction as this encoding says. *)
Theorem C88_used16 : forall r, In r isa16 -> exists b0 b1, 0 <= b0 < 256 /\ 0 <= b1 < 256 /\ ~ In (b1 / 8) [29; 30; 31] /\
  row_for isa16 (b0 + 256 * b1) = Some r /\
  forall py rest a, exists i, decode_bytes py (b0 :: b1 :: rest) a = Ok i /\
    Ok i = decoded false (b0 + 256 * b1) a (observed py r (b0 + 256 * b1)).
Proof. exact C88_used16_proof. Qed.
Print Assumptions C88_used16.

Example C88_used16_ex : List.length isa16 = 78%nat.
Proof. reflexivity. Qed.

(** C88: the same for the 32-bit encodings, push.w excepted. *)
Theorem C88_used32_partial : forall r, In r isa32 -> r_text r <> push_w ->
  exists b0 b1 b2 b3, 0 <= b0 < 256 /\ 0 <= b1 < 256 /\ 0 <= b2 < 256 /\ 0 <= b3 < 256 /\ In (b1 / 8) [29; 30; 31] /\
  let w := b0 + 256 * b1 + 65536 * b2 + 16777216 * b3 in
  row_for isa32 w = Some r /\
  forall py rest a, exists i, decode_bytes py (b0 :: b1 :: b2 :: b3 :: rest) a = Ok i /\ Ok i = decoded true w a (observed py r w).
Proof. exact C88_used32_partial_proof. Qed.
Print Assumptions C88_used32_partial.

Example C88_used32_partial_ex : List.length (filter (fun r => negb (String.eqb (r_text r) push_w)) isa32) = 43%nat.
Proof. vm_compute. reflexivity. Qed.

(** C88, refuted for push.w: it is in the table and the document gives it a meaning, but no
    word at all is decoded by it, NameError is raised instead. *)
Theorem C88_push_w_refuted : exists r, In r isa32 /\ r_text r = push_w /\
  (exists w m k l ops, row_for isa32 w = Some r /\ documented r w = Gives m k l ops) /\
  forall py b0 b1 b2 b3 rest a, 0 <= b0 < 256 -> 0 <= b1 < 256 -> 0 <= b2 < 256 -> 0 <= b3 < 256 -> In (b1 / 8) [29; 30; 31] ->
    row_for isa32 (b0 + 256 * b1 + 65536 * b2 + 16777216 * b3) = Some r ->
    decode_bytes py (b0 :: b1 :: b2 :: b3 :: rest) a = Err NameError.
Proof. exact C88_push_w_refuted_proof. Qed.
Print Assumptions C88_push_w_refuted.
