(** * Proofs about where execution goes *)
From Coq Require Import Lia Sorted.
From Verif Require Import InsnModel CpuModel SpecCpu ExecModel SpecIsa SpecExec SpecWhole ExecFacts ExecArithThms ExecMiscThms ExecShape ExecRows ExecWholeThms ExecRefThms SpecForward.
Local Open Scope Z_scope.
(*@imports From Coq Require Import Lia Sorted.
From Verif Require Import InsnModel CpuModel SpecCpu TableModel ExecModel ExecFacts SpecIsa SpecExec SpecWhole SpecForward ForwardThms.
Local Open Scope Z_scope. @*)

(*@doc C91: one such instruction moves the pc forward, by at least 2 and less than 2^24 + 4, as a
    branch adds the complement of a negative offset (C47_backward_refuted). @*)
Lemma C91_step_proof : forall py c i s, cpu_ok c -> from_bytes py i -> ahead py i -> execute py c i = (s, Ok tt) ->
  exists d, 2 <= d < 2 ^ 24 + 4 /\ reg (s_cpu s) 15 = (reg c 15 + d) mod 2 ^ 32.
Proof.
  intros py c i s OK B A E. assert (SZ : i_size i = 2 \/ i_size i = 4) by (unfold i_size; destruct (i_is32 i); auto).
  destruct A as [A|[K [off O]]].
  - exists (i_size i). split; [change (2 ^ 24) with 16777216; lia|]. exact (C41_advance_proof py c i s (Ok tt) OK B A E).
  - destruct (branch_cases py i B K) as [(m & link & d & _ & O')|(link & k & off0 & At & O' & K0 & OF)]; [rewrite O in O'; discriminate O'|].
    assert (off0 = off) as -> by congruence.
    destruct (C47_immediate_proof py c i (flipped off) link k 0 (proj1 OK)) as (c' & E' & _ & F).
    + apply flipped_word. change (2 ^ 32) with 4294967296. change (2 ^ 24) with 16777216 in OF. lia.
    + exact K0.
    + exact (conj K At).
    + rewrite E in E'. injection E' as ->. cbn [s_cpu]. rewrite (F 15) by (unfold core; lia). change (2 ^ 24) with 16777216 in *.
      destruct (holds_in k (reg c 16)).
      * exists (4 + flipped off). split; [unfold flipped; destruct (Z.ltb_spec off 0); lia|].
        change (set ?f 15 ?v 15) with v. unfold wrap. apply (f_equal (fun z => z mod 2 ^ 32)). lia.
      * exists (i_size i). split; [lia|]. reflexivity.
Qed.
(*@ex
Example C91_step_ex : exists i, decode_bytes Py2 [254; 231] 34 = Ok i /\ i_operands i = [LabelOp (-4)] /\ i_klass i = Branch /\
  reg ex_state 15 = 34 /\ reg_after Py2 ex_state i 15 = 41.
Proof. eexists. split; [vm_compute; reflexivity|]. vm_compute. repeat split; reflexivity. Qed.
@*)

(*@doc C91: no instruction is executed twice on such a walk: the addresses increase, by at least 2
    with each instruction, so that a walk below 2^32 - 2^25 ends. Loops need bx, a load of the pc
    and the like. @*)
Lemma C91_walk_proof : forall py c pcs c', cpu_ok c -> walks py c pcs c' -> Forall (fun pc => pc < 2 ^ 32 - 2 ^ 25) pcs ->
  StronglySorted Z.lt (pcs ++ [reg c' 15]) /\ reg c 15 + 2 * Z.of_nat (List.length pcs) <= reg c' 15.
Proof.
  intros py c pcs c' OK W. revert OK. induction W as [c|c i s pcs c' B A E W IH]; intros OK F.
  - split; [repeat constructor|cbn [List.length]; lia].
  - inversion F as [|? ? F1 F2]; subst.
    assert (OK' : cpu_ok (s_cpu s)) by (pose proof (C40_execute_proof py c i OK B) as [K _]; rewrite E in K; exact K).
    destruct (IH OK' F2) as [S L]. destruct (C91_step_proof py c i s OK B A E) as (d & D & P).
    assert (Wp : word (reg c 15)) by (apply word_gpr; [exact (proj1 OK)|unfold gpr; lia]).
    assert (P' : reg (s_cpu s) 15 = reg c 15 + d).
    { rewrite P. apply Z.mod_small. unfold word in Wp. change (2 ^ 32) with 4294967296 in *. change (2 ^ 25) with 33554432 in *. change (2 ^ 24) with 16777216 in *. lia. }
    split.
    + cbn [app]. constructor; [exact S|]. apply Forall_forall. intros x X.
      assert (reg (s_cpu s) 15 <= x); [|lia].
      destruct pcs as [|p pcs].
      * cbn [app In] in X. destruct X as [<-|[]]. inversion W; subst. lia.
      * assert (p = reg (s_cpu s) 15) by (inversion W; subst; reflexivity). subst p. cbn [app] in S, X. inversion S as [|? ? S1 S2]; subst.
        destruct X as [<-|X]; [lia|]. rewrite Forall_forall in S2. specialize (S2 x X). lia.
    + cbn [List.length]. lia.
Qed.
(*@ex
Example C91_walk_ex : exists i c', decode_bytes Py2 [253; 231] 34 = Ok i /\ cpu_ok ex_state /\ walks Py2 ex_state [34] c' /\ reg c' 15 = 43.
Proof.
  assert (X : exists i, decode_bytes Py2 [253; 231] 34 = Ok i /\ i_klass i = Branch /\ i_operands i = [LabelOp (-6)] /\
    snd (execute Py2 ex_state i) = Ok tt /\ reg_after Py2 ex_state i 15 = 43) by (eexists; split; [vm_compute; reflexivity|]; vm_compute; repeat split; reflexivity).
  destruct X as (i & D & K & O & E & P). exists i, (s_cpu (fst (execute Py2 ex_state i))). split; [exact D|]. split; [exact ex_state_ok|]. split; [|exact P].
  change 34 with (reg ex_state 15). apply (walk_step Py2 ex_state i (fst (execute Py2 ex_state i))).
  - exists [253; 231], 34. split; [repeat constructor; discriminate|exact D].
  - right. split; [exact K|]. exists (-6). exact O.
  - rewrite <- E. destruct (execute Py2 ex_state i). reflexivity.
  - apply walk_none.
Qed.
@*)
