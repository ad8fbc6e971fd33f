(** Property statements; each is proved in RunThms.v under the same name.
    Written by tools/genprops.py. *)
From Coq Require Import Lia.
From Verif Require Import SimModel SpecBits SpecArm SpecCpu TableModel ExecModel ExecFacts SpecWhole SpecDisasm SpecFormat ExecRefThms SpecSim SpecConsole SpecExec SpecIsa SpecRun RunThms.
Local Open Scope string_scope.
Local Open Scope list_scope.
Local Open Scope Z_scope.
Local Open Scope bool_scope.

(** C83: stepping through a program in the console runs the machine: if the machine can
run on from [c] to [c'] over n instructions, then after n lines, each of them a step command
or blank after one, the machine is in [c'], and the output has grown by the lines of the
n instructions, in order. *)
Theorem C83_stepping : forall lines c', forall s, runs_on (sim_cpu s) lines c' -> ready s -> cpu_ok (sim_cpu s) ->
  forall typed last, List.length typed = List.length lines -> Forall (fun t => blank t \/ step_line t) typed ->
  (step_command last \/ match typed with t :: _ => step_line t | [] => True end) ->
  exists s' l, console_run last typed s = (s', Done tt) /\ sim_cpu s' = c' /\ sim_out s' = sim_out s ++ map Txt l /\ glue l = glue lines +++ newline.
Proof. exact C83_stepping_proof. Qed.
Print Assumptions C83_stepping.

Example C83_stepping_ex :
  (exists c', runs_on ex_machine [the_line "0x00000008:  2001         movs    r0, #1"; the_line "0x0000000a:  1c40         adds    r0, r0, #1"] c' /\ reg c' 0 = 2) /\
  match DECODER_TREE with
  | Ok t => let s := fst (sim_start t ex_program) in reg (sim_cpu (fst (console_run "" ["step"; ""] s))) 0 = 2
  | Err _ => False
  end.
Proof.
  split; [|vm_compute; reflexivity]. eexists. split.
  - match goal with |- runs_on ?c (_ :: ?ls) _ => replace (the_line "0x00000008:  2001         movs    r0, #1" :: ls) with (the_line ("0x" +++ hexn 8 (even_pc c) +++ ":  " +++ "2001         movs    r0, #1") :: ls) by (vm_compute; reflexivity) end.
    eapply runs_next; [vm_compute; reflexivity|vm_compute; reflexivity|right; vm_compute; exact I|vm_compute; reflexivity|vm_compute; reflexivity|].
    match goal with |- runs_on ?c (_ :: ?ls) _ => replace (the_line "0x0000000a:  1c40         adds    r0, r0, #1" :: ls) with (the_line ("0x" +++ hexn 8 (even_pc c) +++ ":  " +++ "1c40         adds    r0, r0, #1") :: ls) by (vm_compute; reflexivity) end.
    eapply runs_next; [vm_compute; reflexivity|vm_compute; reflexivity|right; vm_compute; exact I|vm_compute; reflexivity|vm_compute; reflexivity|].
    apply runs_stop.
  - vm_compute. reflexivity.
Qed.

(** C84: a call returns: bl and blx leave in lr the address of the instruction behind them,
with bit 0 set; whenever lr holds this again, bx lr goes there and changes nothing else.
(Where they go: for blx stated here, except blx lr, see C47_blx_lr_refuted; for bl in C47.) *)
Theorem C84_call_return : forall py c i, regs_ok c -> from_bytes py i -> i_mnemonic i = "bl" \/ i_mnemonic i = "blx" ->
  let next := (reg c 15 + (if String.eqb (i_mnemonic i) "bl" then 4 else 2)) mod 2 ^ 32 in
  exists c1, execute py c i = (mkst c1 i, Ok tt) /\ c_mem c1 = c_mem c /\ reg c1 14 = Z.lor next 1 /\
    (forall k, core k -> k <> 14 -> k <> 15 -> reg c1 k = reg c k) /\
    (forall m, i_operands i = [R m] -> m <> 14 -> reg c1 15 = reg c m - reg c m mod 2) /\
  forall c2 j, regs_ok c2 -> reg c2 14 = reg c1 14 -> from_bytes py j -> i_mnemonic j = "bx" -> i_operands j = [R 14] ->
  exists c3, execute py c2 j = (mkst c3 j, Ok tt) /\ c_mem c3 = c_mem c2 /\ reg c3 15 = next - next mod 2 /\ forall k, core k -> k <> 15 -> reg c3 k = reg c2 k.
Proof. exact C84_call_return_proof. Qed.
Print Assumptions C84_call_return.

(* blx r3 at 16, and bx lr. *)
Example C84_call_return_ex : exists i j, decode_bytes Py2 [152; 71] 16 = Ok i /\ i_mnemonic i = "blx" /\ decode_bytes Py2 [112; 71] 64 = Ok j /\ i_mnemonic j = "bx" /\ i_operands j = [R 14] /\
  let c := ex_with [(3, 65); (15, 16)] in regs_ok c /\
  let c1 := s_cpu (fst (execute Py2 c i)) in reg c1 14 = 19 /\ reg c1 15 = 64 /\ reg (s_cpu (fst (execute Py2 c1 j))) 15 = 18.
Proof.
  eexists. eexists. split; [vm_compute; reflexivity|]. split; [reflexivity|]. split; [vm_compute; reflexivity|]. split; [reflexivity|]. split; [reflexivity|].
  split; [apply (ex_with_ok [(3, 65); (15, 16)]); repeat constructor; discriminate|]. split; [vm_compute; reflexivity|]. split; vm_compute; reflexivity.
Qed.

(** C85: what a store has written, a load from the same address, however it is computed,
gets back (extended to a word), whatever has happened to the registers in between. *)
Theorem C85_store_load : forall py c i t ms s a, cpu_ok c -> gpr t -> size_ok ms -> transfers c Store i t ms s a -> in_one_region c a (ms / 8) ->
  exists c1, execute py c i = (mkst c1 i, Ok tt) /\
  forall c2 j t2 sgn, regs_ok c2 -> c_mem c2 = c_mem c1 -> gpr t2 -> transfers c2 Load j t2 ms sgn a ->
  runs py c2 j (advance (set (reg c2) t2 (extended ms sgn (reg c t mod 2 ^ ms))) (i_size j)) j.
Proof. exact C85_store_load_proof. Qed.
Print Assumptions C85_store_load.

(* strh r4, [r3, #4]; ldrsh r0, [r3, #4]. *)
Example C85_store_load_ex : let i := an_insn Store [T 4; N 3; Imm 4; Idx true; Add true; Wb false; Mem 16; Sgn false] false in
  let j := an_insn Load [T 0; N 3; Imm 4; Idx true; Add true; Wb false; Mem 16; Sgn true] false in
  cpu_ok ex_state /\ transfers ex_state Store i 4 16 false 20 /\ in_one_region ex_state 20 2 /\ reg ex_state 4 = 0x12345678 /\
  let c1 := s_cpu (fst (execute Py2 ex_state i)) in transfers c1 Load j 0 16 true 20 /\ reg (s_cpu (fst (execute Py2 c1 j))) 0 = 0x5678.
Proof.
  intros i j. split; [exact ex_state_ok|]. split; [|split; [|split; [vm_compute; reflexivity|intros c1; split; [|vm_compute; reflexivity]]]].
  - apply (transfers_imm ex_state Store i 4 16 false 3 4 true); [split; discriminate|split; [discriminate|reflexivity]|split; reflexivity].
  - split; [discriminate|].
    exists 0%nat, (mkmem 0 63 (List.map (fun k => match cell ex_state 0 (Z.of_nat k) with Some b => b | None => 0 end) (List.seq 0 64))).
    intros o O. split; [vm_compute; reflexivity|]. split; [unfold in_region; cbn [m_start m_end]; lia|]. intros k m K. inversion K.
  - apply (transfers_imm c1 Load j 0 16 true 3 4 true); [split; discriminate|split; [discriminate|reflexivity]|split; reflexivity].
Qed.

(** C85: a load from other addresses gets what it would have got without the store. *)
Theorem C85_store_elsewhere : forall py c i t ms s a, cpu_ok c -> gpr t -> size_ok ms -> transfers c Store i t ms s a ->
  exists c1, execute py c i = (mkst c1 i, Ok tt) /\
  forall c2 j t2 m2 sgn b v, regs_ok c2 -> c_mem c2 = c_mem c1 -> gpr t2 -> size_ok m2 -> transfers c2 Load j t2 m2 sgn b ->
  b + m2 / 8 <= a \/ a + ms / 8 <= b -> reads c b m2 v ->
  runs py c2 j (advance (set (reg c2) t2 (extended m2 sgn v)) (i_size j)) j.
Proof. exact C85_store_elsewhere_proof. Qed.
Print Assumptions C85_store_elsewhere.

(* strh r4, [r3, #4]; ldr r0, [r3, #0]. *)
Example C85_store_elsewhere_ex : let i := an_insn Store [T 4; N 3; Imm 4; Idx true; Add true; Wb false; Mem 16; Sgn false] false in
  let j := an_insn Load [T 0; N 3; Imm 0; Idx true; Add true; Wb false; Mem 32; Sgn false] false in
  cpu_ok ex_state /\ transfers ex_state Store i 4 16 false 20 /\ 
  let c1 := s_cpu (fst (execute Py2 ex_state i)) in transfers c1 Load j 0 32 false 16 /\ reg (s_cpu (fst (execute Py2 c1 j))) 0 = 0x80ff7f01.
Proof.
  intros i j. split; [exact ex_state_ok|]. split; [|intros c1; split; [|vm_compute; reflexivity]].
  - apply (transfers_imm ex_state Store i 4 16 false 3 4 true); [split; discriminate|split; [discriminate|reflexivity]|split; reflexivity].
  - apply (transfers_imm c1 Load j 0 32 false 3 0 true); [split; discriminate|split; [discriminate|reflexivity]|split; reflexivity].
Qed.

(** C85: all loads and stores there are (but the loads of literals) are of this kind: the
register, the number of bits and the extension do not depend on the state, the address does. *)
Theorem C85_all_transfer : forall py i, from_bytes py i -> i_klass i = Load \/ i_klass i = Store ->
  exists t ms sgn, gpr t /\ size_ok ms /\ forall c, exists a, transfers c (i_klass i) i t ms sgn a.
Proof. exact C85_all_transfer_proof. Qed.
Print Assumptions C85_all_transfer.

(* ldrh r1, [r0, r2]. *)
Example C85_all_transfer_ex : exists i, decode_bytes Py2 [129; 90] 16 = Ok i /\ i_klass i = Load /\ transfers ex_state Load i 1 16 false 0xfffffff7.
Proof.
  eexists. split; [vm_compute; reflexivity|]. split; [reflexivity|].
  match goal with |- transfers ?c ?k ?i _ _ _ _ => apply (transfers_reg c k i 1 16 false 0 2 SR_None 0 true) end;
    [split; discriminate|split; discriminate|discriminate|discriminate|split; vm_compute; reflexivity].
Qed.
