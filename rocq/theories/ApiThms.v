(** * Proofs about delegates, the registry of decoders and the texts of the CPU model *)
(*@imports
From Coq Require Import ZArith List String Bool Lia.
From Verif Require Import DelegateModel RegistryModel SpecBits SpecArm SpecCpu SpecDecoder SpecApi ApiThms.
Local Open Scope Z_scope.
@*)
From Coq Require Import ZArith List Lia Bool String.
From Verif Require Import DelegateModel RegistryModel SpecBits SpecArm SpecCpu SpecDecoder SpecApi BitFacts BitOps BitMisc HelpFacts CpuFacts CpuThms UtilFacts UtilThms BitText FormatFacts TreeFacts DecThms.
Local Open Scope Z_scope.

(** ** Delegates *)
(*@doc C75: the CPU model asks its delegate exactly one question per access, for the register
with the index of the name and with addresses and values as integers, and otherwise behaves
the same when the delegate writes down the questions. @*)
Lemma C75_calls_proof : forall S (d : delegate S) g s l, g_call (Some (recording d)) g (s, l) = (g_call (Some d) g s, l ++ [asks g]).
Proof.
  intros S d g s l. destruct g as [r|r v|a n|a v n]; cbn [g_call asks]; unfold g_read_register, g_write_register, g_read_memory, g_write_memory;
    cbn [recording del_read_register del_write_register del_read_memory del_write_memory].
  - destruct (del_read_register d (register_name_to_index r) s). reflexivity.
  - destruct (del_write_register d (register_name_to_index r) (num_val v) s). reflexivity.
  - destruct (del_read_memory d (num_val a) n s). reflexivity.
  - destruct (del_write_memory d (num_val a) (num_val v) n s). reflexivity.
Qed.
(*@ex
Example C75_calls_ex : g_call (Some (recording ex_delegate)) (GWriteReg (RName "XPSR") (NBits (bits 8 300))) ((5, 0), []) = ((44, 1), [DWriteReg (Some 16) 44]) /\
  g_call (Some (recording ex_delegate)) (GReadMem (NInt 8) 16) ((5, 0), []) = ((5, 0), [DReadMem 8 16]).
Proof. split; reflexivity. Qed.
@*)
(*@doc C75: what it returns is the delegate's answer as a bitstring, of the width asked for when
memory is read. @*)
Lemma C75_answers_proof : forall S (d : delegate S) s,
  (forall r s' v b, del_read_register d (register_name_to_index r) s = (s', Ok v) -> bs_init v None = Ok b -> g_read_register (Some d) r s = (s', Ok (Some b))) /\
  (forall a n s' v b, del_read_memory d (num_val a) n s = (s', Ok v) -> bs_init v (Some n) = Ok b -> g_read_memory (Some d) a n s = (s', Ok (Some b))) /\
  (forall r s' e, del_read_register d (register_name_to_index r) s = (s', Err e) -> g_read_register (Some d) r s = (s', Err e)) /\
  (forall a n s' e, del_read_memory d (num_val a) n s = (s', Err e) -> g_read_memory (Some d) a n s = (s', Err e)) /\
  (forall r v, g_write_register (Some d) r v s = del_write_register d (register_name_to_index r) (num_val v) s) /\
  (forall a v n, g_write_memory (Some d) a v n s = del_write_memory d (num_val a) (num_val v) n s).
Proof.
  intros S d s. unfold g_read_register, g_read_memory.
  split; [intros r s' v b E B; rewrite E; cbn [bind]; rewrite B; reflexivity|].
  split; [intros a n s' v b E B; rewrite E; cbn [bind]; rewrite B; reflexivity|].
  split; [intros r s' e E; rewrite E; reflexivity|]. split; [intros a n s' e E; rewrite E; reflexivity|]. split; reflexivity.
Qed.
(*@ex
Example C75_answers_ex : g_read_register (Some ex_delegate) (RName "sp") (7, 0) = ((7, 1), Ok (Some (bits 32 7))) /\
  g_read_memory (Some ex_delegate) (NInt 8) 16 (7, 0) = ((7, 0), Ok (Some (bits 16 0))).
Proof. split; reflexivity. Qed.
@*)
(*@doc C75: register files cpu.r and cpu.s: which index is read and written, and when KeyError is
raised (the float registers are read at the wrong index, see C39). @*)
Lemma C75_files_proof : forall S (d : option (delegate S)) k s v,
  (g_ri_get d 0 15 k s = if 15 <? k then (s, Err KeyError) else g_read_register d (RIndex k) s) /\
  (g_ri_set d 0 15 k v s = if 15 <? k then (s, Err KeyError) else g_write_register d (RIndex k) v s) /\
  (g_ri_get d 64 95 k s = if -33 <? k then (s, Err KeyError) else g_read_register d (RIndex (128 + k)) s) /\
  (g_ri_set d 64 95 k v s = if 31 <? k then (s, Err KeyError) else g_write_register d (RIndex (64 + k)) v s).
Proof.
  intros S d k s v. unfold g_ri_get, g_ri_set. cbv zeta. rewrite !Z.add_0_l. split; [reflexivity|]. split; [reflexivity|]. split.
  - rewrite Z.add_assoc. change (64 + 64) with 128. replace (95 <? 128 + k) with (-33 <? k) by lia. reflexivity.
  - replace (95 <? 64 + k) with (31 <? k) by lia. reflexivity.
Qed.
(*@ex
Example C75_files_ex : g_ri_get (Some ex_delegate) 0 15 3 (7, 0) = ((7, 1), Ok (Some (bits 32 7))) /\ g_ri_get (Some ex_delegate) 0 15 16 (7, 0) = ((7, 0), Err KeyError) /\
  g_ri_get (Some ex_delegate) 64 95 0 (7, 0) = ((7, 0), Err KeyError).
Proof. repeat split; reflexivity. Qed.
@*)
(*@doc C75: with any delegate that keeps xPSR, the flags are four independent bits of it: reading
one gives its bit, setting one changes exactly its bit (the value counts modulo 2). @*)
Lemma C75_flags_proof : forall S (d : delegate S) Inv V s f, keeps d 16 Inv V -> Inv s ->
  (exists s', g_apsr_get (Some d) f s = (s', Ok (bitv (Z.testbit (V s) (flag_bit f)))) /\ Inv s' /\ V s' = V s) /\
  forall v b, (v = VInt b \/ exists x, v = VBits x /\ wf x /\ bv x = b) ->
    exists s', g_apsr_set (Some d) f v s = (s', Ok tt) /\ Inv s' /\
      forall i, 0 <= i -> Z.testbit (V s') i = if i =? flag_bit f then Z.odd b else Z.testbit (V s) i.
Proof.
  intros S d Inv V s f K I. destruct (K s I) as (R & (s1 & R1 & I1 & V1) & _). pose proof (flag_bit_range f) as F.
  assert (X : g_read_register (Some d) (RName "xpsr") s = (s1, Ok (Some (bits 32 (V s))))).
  { unfold g_read_register. change (register_name_to_index (RName "xpsr")) with (Some 16). rewrite R1. cbn [bind].
    rewrite init_default by exact R. reflexivity. }
  split.
  - exists s1. split; [|split; assumption]. unfold g_apsr_get, g_use. rewrite X. cbn [bind bs_getitem].
    rewrite get_bit_bitv by lia. cbn [bits bv]. rewrite testbit_mod by lia. replace (flag_bit f <? 32) with true by lia. reflexivity.
  - intros v b Hv.
    assert (E : bs_init v (Some 1) = Ok (bitv (Z.odd b))).
    { destruct Hv as [->|(x & -> & Hx & <-)]; [apply init1_int|]. rewrite init1_bits by exact Hx. rewrite Z.bit0_odd. reflexivity. }
    destruct (setbit_ok (bits 32 (V s)) (flag_bit f) (VBits (bitv (Z.odd b))) (if Z.odd b then 1 else 0)) as (r & E1 & W & Wd & B).
    { apply wf_bits; lia. } { cbn [bits bw]. lia. } { reflexivity. }
    cbn [bits bw] in Wd, B. destruct W as (_ & W & _). rewrite Wd in W.
    destruct (K s1 I1) as (_ & _ & K2). destruct (K2 (bv r) W) as (s2 & W2 & I2 & V2).
    exists s2. split; [|split; [exact I2|]].
    + unfold g_apsr_set. rewrite X. cbn [bind]. rewrite E. cbn [bind bs_setitem]. rewrite E1. unfold g_write_register.
      change (register_name_to_index (RName "xpsr")) with (Some 16). exact W2.
    + intros j Hj. rewrite V2. destruct (Z.ltb_spec j 32) as [L|L].
      * unfold bit in B. rewrite B by lia. replace (flag_bit f <? 0) with false by lia. destruct (j =? flag_bit f); [destruct (Z.odd b); reflexivity|].
        cbn [bits bv]. rewrite testbit_mod by lia. replace (j <? 32) with true by lia. reflexivity.
      * replace (j =? flag_bit f) with false by lia. rewrite (testbit_small (bv r) 32) by lia. rewrite (testbit_small (V s) 32) by lia. reflexivity.
Qed.
(*@ex
Example C75_flags_ex : keeps ex_delegate 16 (fun s => 0 <= fst s < 2 ^ 32) fst /\
  g_apsr_set (Some ex_delegate) FC (VInt 3) (5, 0) = ((536870917, 2), Ok tt) /\ g_apsr_get (Some ex_delegate) FC (536870917, 2) = ((536870917, 3), Ok (bits 1 1)).
Proof.
  split; [|split; reflexivity]. intros [v n] R. cbn [fst] in *. split; [exact R|]. split; [exists (v, n + 1); repeat split; apply R|].
  intros w W. exists (w, n + 1). repeat split; apply W.
Qed.
@*)
(*@doc C75: the mock delegate keeps xPSR, so C38 is the special case. @*)
Lemma C75_mock_keeps_proof : keeps mock_delegate 16 regs_ok (fun c => reg c 16).
Proof.
  intros c R. destruct (regs_ok_reg c 16 R ltac:(left; lia)) as [G B]. split; [exact B|]. split.
  - exists c. split; [|split; [exact R|reflexivity]]. cbn [mock_delegate del_read_register]. unfold mock_read_register. rewrite G. reflexivity.
  - intros v Hv. exists (mock_write_register c (Some 16) v). split; [reflexivity|]. split; [apply regs_ok_write; assumption|].
    rewrite mock_write_reg. reflexivity.
Qed.
(*@ex
Example C75_mock_keeps_ex : g_apsr_set (Some mock_delegate) FZ (VInt 1) cpu_new = (set_xpsr cpu_new (NInt 1090519040), Ok tt).
Proof. reflexivity. Qed.
@*)
(*@doc C75: with the mock delegate every access is the one of the machine that all other
properties are about. @*)
Lemma C75_mock_proof : forall c, let d := Some mock_delegate in
  (forall r, g_read_register d r c = reads Some c (read_register c r)) /\
  (forall r v, g_write_register d r v c = (write_register c r v, Ok tt)) /\
  (forall a n, g_read_memory d a n c = reads Some c (read_memory c a n)) /\
  (forall a v n, g_write_memory d a v n c = writes c (write_memory c a v n)) /\
  (forall k, g_ri_get d 0 15 k c = reads Some c (r_get c k)) /\ (forall k v, g_ri_set d 0 15 k v c = writes c (r_set c k v)) /\
  (forall k, g_ri_get d 64 95 k c = reads Some c (s_get c k)) /\ (forall k v, g_ri_set d 64 95 k v c = writes c (s_set c k v)) /\
  g_pc_for_instr d c = (c, pc_for_instr c) /\ g_is_privileged d c = (c, is_privileged c) /\ g_ipsr d c = (c, get_ipsr c) /\
  (forall f, g_apsr_get d f c = (c, apsr_get c f)) /\ (forall f v, g_apsr_set d f v c = writes c (apsr_set c f v)).
Proof.
  intros c d.
  assert (R : forall r, g_read_register d r c = reads Some c (read_register c r)).
  { intros r. unfold g_read_register, d, reads, read_register. cbn [mock_delegate del_read_register].
    destruct (mock_read_register c (register_name_to_index r)) as [v|e]; [|reflexivity]. cbn [bind]. destruct (bs_init (VInt v) None); reflexivity. }
  assert (U : forall A r (f : bs -> res A), g_use (g_read_register d r c) f = (c, let* b := read_register c r in f b)).
  { intros A r f. rewrite R. unfold reads, g_use. destruct (read_register c r); reflexivity. }
  split; [exact R|]. split; [reflexivity|]. split.
  { intros a n. unfold g_read_memory, d, reads, read_memory. cbn [mock_delegate del_read_memory].
    destruct (mock_read_memory c (num_val a) n) as [v|e]; [|reflexivity]. cbn [bind]. destruct (bs_init v (Some n)); reflexivity. }
  split. { intros a v n. unfold g_write_memory, d, writes, write_memory. cbn [mock_delegate del_write_memory]. destruct (mock_write_memory c _ _ n); reflexivity. }
  split. { intros k. unfold g_ri_get, r_get, ri_get. cbv zeta. destruct (15 <? _); [reflexivity|apply R]. }
  split. { intros k v. unfold g_ri_set, r_set, ri_set. cbv zeta. destruct (15 <? _); reflexivity. }
  split. { intros k. unfold g_ri_get, s_get, ri_get. cbv zeta. destruct (95 <? _); [reflexivity|apply R]. }
  split. { intros k v. unfold g_ri_set, s_set, ri_set. cbv zeta. destruct (95 <? _); reflexivity. }
  split; [apply U|]. split; [apply U|]. split; [apply U|]. split; [intros f; apply U|].
  intros f v. unfold g_apsr_set. rewrite R. unfold reads, apsr_set, get_xpsr, writes. destruct (read_register c (RName "xpsr")) as [x|e]; [|reflexivity].
  cbn [bind]. destruct (bs_init v (Some 1)) as [b|e]; [|reflexivity]. cbn [bind]. destruct (bs_setitem x (KInt (flag_bit f)) (VBits b)); reflexivity.
Qed.
(*@ex
Example C75_mock_ex : g_read_register (Some mock_delegate) (RName "xpsr") cpu_new = (cpu_new, Ok (Some (bits 32 16777216))) /\
  g_ri_set (Some mock_delegate) 0 15 13 (NInt 7) cpu_new = (set_sp cpu_new (NInt 4), Ok tt).
Proof. split; reflexivity. Qed.
@*)
(*@doc C75: without a delegate reads give None, writes do nothing, and whatever computes with a
register raises TypeError. @*)
Lemma C75_none_proof : forall S (s : S), let d : option (delegate S) := None in
  (forall r, g_read_register d r s = (s, Ok None)) /\ (forall r v, g_write_register d r v s = (s, Ok tt)) /\
  (forall a n, g_read_memory d a n s = (s, Ok None)) /\ (forall a v n, g_write_memory d a v n s = (s, Ok tt)) /\
  g_pc_for_instr d s = (s, Err TypeError) /\ g_is_privileged d s = (s, Err TypeError) /\ g_ipsr d s = (s, Err TypeError) /\
  (forall f, g_apsr_get d f s = (s, Err TypeError)) /\
  forall f v, g_apsr_set d f v s = (s, Err (match bs_init v (Some 1) with Ok _ => TypeError | Err e => e end)).
Proof.
  intros S s d. repeat (split; [reflexivity|]). intros f v. unfold g_apsr_set, g_read_register, d. cbn [bind]. destruct (bs_init v (Some 1)); reflexivity.
Qed.
(*@ex
Example C75_none_ex : g_apsr_set None FN (VInt 1) 0 = (0, Err TypeError) /\ g_apsr_set None FN (VStr "x") 0 = (0, Err ValueError).
Proof. split; reflexivity. Qed.
@*)
(*@doc C75: with the delegate base class every register is the empty bitstring and memory is zero;
nothing is stored, not even by setting a flag, which raises IndexError. @*)
Lemma C75_base_proof : forall S (s : S), let d := Some (base_delegate S) in
  (forall r, g_read_register d r s = (s, Ok (Some (bits 0 0)))) /\ (forall r v, g_write_register d r v s = (s, Ok tt)) /\
  (forall a n, 0 <= n -> g_read_memory d a n s = (s, Ok (Some (bits n 0)))) /\ (forall a v n, g_write_memory d a v n s = (s, Ok tt)) /\
  g_pc_for_instr d s = (s, Ok (bits 0 0)) /\ g_is_privileged d s = (s, Ok true) /\ g_ipsr d s = (s, Ok (bits 0 0)) /\
  (forall f, g_apsr_get d f s = (s, Ok (bits 1 0))) /\
  forall f v, g_apsr_set d f v s = (s, Err (match bs_init v (Some 1) with Ok _ => IndexError | Err e => e end)).
Proof.
  intros S s d. split; [reflexivity|]. split; [reflexivity|]. split; [|split; [reflexivity|]].
  - intros a n N. unfold g_read_memory, d. cbn [base_delegate del_read_memory bind]. unfold bs_init, bs_raw. cbn [bind].
    rewrite finish_ok by exact N. reflexivity.
  - split; [reflexivity|]. split; [reflexivity|]. split; [reflexivity|]. split; [intros []; reflexivity|].
    intros f v. unfold g_apsr_set. change (g_read_register d (RName "xpsr") s) with (s, Ok (Some (bits 0 0))). cbn [bind].
    destruct (bs_init v (Some 1)) as [b|e]; [|reflexivity]. destruct f; reflexivity.
Qed.
(*@ex
Example C75_base_ex : g_read_memory (Some (base_delegate Z)) (NInt 5) 8 0 = (0, Ok (Some (bits 8 0))) /\ g_apsr_set (Some (base_delegate Z)) FN (VInt 1) 0 = (0, Err IndexError).
Proof. split; reflexivity. Qed.
@*)

(*@doc C75: the block accesses hand address, length and data to the delegate's method and its answer back,
whatever they are; without a delegate they do nothing, and with one that has no such method, as the
base class, they raise AttributeError.  With the mock they are the ones of the machine. @*)
Lemma C75_blocks_proof : forall S A D V (s : S) (a : A) (x : D),
  (forall (f : A -> D -> S -> S * res V), g_write_memory_block (Some (Some f)) a x s = (fst (f a x s), match snd (f a x s) with Ok _ => Ok tt | Err e => Err e end)) /\
  (forall (f : A -> D -> S -> S * res V), g_read_memory_block (Some (Some f)) a x s = (fst (f a x s), match snd (f a x s) with Ok v => Ok (Some v) | Err e => Err e end)) /\
  @g_write_memory_block S A D V None a x s = (s, Ok tt) /\ @g_read_memory_block S A D V None a x s = (s, Ok None) /\
  @g_write_memory_block S A D V (Some None) a x s = (s, Err AttributeError) /\ @g_read_memory_block S A D V (Some None) a x s = (s, Err AttributeError) /\
  (forall c k data, g_write_memory_block (Some (Some mock_block_write)) k data c = writes c (write_memory_block c k data)) /\
  (forall c k n, g_read_memory_block (Some (Some mock_block_read)) k n c = (c, Ok (Some (read_memory_block c k n)))).
Proof.
  intros S A D V s a x. split; [|split; [|repeat (split; [reflexivity|]); split]].
  - intros f. unfold g_write_memory_block. destruct (f a x s) as [s' [v|e]]; reflexivity.
  - intros f. unfold g_read_memory_block. destruct (f a x s) as [s' [v|e]]; reflexivity.
  - intros c k data. unfold g_write_memory_block, mock_block_write, writes. destruct (write_memory_block c k data); reflexivity.
  - reflexivity.
Qed.
(*@ex
Example C75_blocks_ex : g_write_memory_block (Some (Some (fun (a : Z) (l : list Z) (s : list Z) => (a :: l ++ s, Ok 5)))) 1 [2; 3] [4] = ([1; 2; 3; 4], Ok tt) /\
  g_read_memory_block (Some (Some (fun (a n s : Z) => (s + 1, Ok (a + n))))) 1 2 7 = (8, Ok (Some 3)).
Proof. split; reflexivity. Qed.
@*)

(** ** The registry of decoders *)

Section Registry.
  Context {H : Type} (call : pyver -> H -> insn -> list (string * bs) -> res insn).

  Lemma added_app : forall l l' : list (rcall H), added (l ++ l') = (added l ++ added l')%list.
  Proof. intros. apply flat_map_app. Qed.
  Lemma added_made : forall l : list (rcall H), Forall made (added l).
  Proof.
    intros l. apply Forall_forall. intros d I. apply in_flat_map in I. destruct I as (c & _ & I). destruct c as [h m k sp sp2 kw| |]; try contradiction.
    destruct (make_decoder h m k sp sp2 kw) eqn:E; [|contradiction]. destruct I as [<-|[]]. exists h, m, k, sp, sp2, kw. exact E.
  Qed.
  Lemma build_lists : forall o : registry H, rg_decoders16 (fst (registry_build o)) = rg_decoders16 o /\ rg_decoders32 (fst (registry_build o)) = rg_decoders32 o.
  Proof.
    intros o. unfold registry_build. cbv zeta. destruct (build_tree _ (rg_decoders16 o)); [|split; reflexivity]. cbn [rg_decoders32].
    destruct (build_tree _ (rg_decoders32 o)); split; reflexivity.
  Qed.
  Lemma decode_lists : forall py data a (o : registry H),
    rg_decoders16 (fst (registry_decode call py data a o)) = rg_decoders16 o /\ rg_decoders32 (fst (registry_decode call py data a o)) = rg_decoders32 o.
  Proof.
    intros py data a o. unfold registry_decode. destruct (negb _); [split; reflexivity|]. destruct (bytes_to_le16 data 0); [|split; reflexivity].
    destruct (is_32bit_prefix _).
    - destruct (_ <? 4); [split; reflexivity|]. destruct (bytes_to_le16 data 2); [|split; reflexivity]. destruct (opt_decode _ _ _ _); split; reflexivity.
    - destruct (opt_decode _ _ _ _ _); split; reflexivity.
  Qed.
  Lemma r_call_lists : forall c (o : registry H),
    rg_decoders16 (r_call call o c) = (rg_decoders16 o ++ registered16 (added [c]))%list /\
    rg_decoders32 (r_call call o c) = (rg_decoders32 o ++ registered32 (added [c]))%list.
  Proof.
    intros c o. unfold added. destruct c as [h m k sp sp2 kw| |py data a]; cbn [r_call flat_map].
    - unfold registry_instr. destruct (make_decoder h m k sp sp2 kw) as [d|e]; cbn [fst app]; [|rewrite !app_nil_r; split; reflexivity].
      unfold add_decoder, registered16, registered32. cbn [filter]. destruct (d_is32 d); cbn [negb rg_decoders16 rg_decoders32]; rewrite ?app_nil_r; split; reflexivity.
    - cbn [app registered16 registered32 filter]. rewrite !app_nil_r. apply build_lists.
    - cbn [app registered16 registered32 filter]. rewrite !app_nil_r. apply decode_lists.
  Qed.
  Lemma r_lists : forall l (o : registry H),
    rg_decoders16 (fold_left (r_call call) l o) = (rg_decoders16 o ++ registered16 (added l))%list /\
    rg_decoders32 (fold_left (r_call call) l o) = (rg_decoders32 o ++ registered32 (added l))%list.
  Proof.
    induction l as [|c l IH]; intros o; [cbn; rewrite !app_nil_r; split; reflexivity|]. cbn [fold_left].
    destruct (IH (r_call call o c)) as [A B]. destruct (r_call_lists c o) as [A' B']. rewrite A, B, A', B'.
    change (c :: l) with ([c] ++ l). rewrite added_app. unfold registered16, registered32. rewrite !filter_app, !app_assoc. split; reflexivity.
  Qed.
  Definition has_trees (o : registry H) (t : dtree H) : Prop := rg_tree16 o = Some (t_16 t) /\ rg_tree32 o = Some (t_32 t).
  Lemma decode_trees : forall py data a o t, has_trees o t ->
    snd (registry_decode call py data a o) = snd (decode call py t data a) /\
    has_trees (fst (registry_decode call py data a o)) (fst (decode call py t data a)).
  Proof.
    intros py data a o t [A B]. unfold registry_decode, decode. destruct (negb _); [split; [reflexivity|split; assumption]|].
    destruct (bytes_to_le16 data 0); [|split; [reflexivity|split; assumption]].
    destruct (is_32bit_prefix _).
    - destruct (_ <? 4); [split; [reflexivity|split; assumption]|]. destruct (bytes_to_le16 data 2); [|split; [reflexivity|split; assumption]].
      rewrite B. unfold opt_decode. cbv zeta. destruct (tree_decode call py (t_32 t) _ a). split; [reflexivity|]. split; [exact A|reflexivity].
    - rewrite A. unfold opt_decode. destruct (tree_decode call py (t_16 t) _ a). split; [reflexivity|]. split; [reflexivity|exact B].
  Qed.
  Lemma trees_after : forall l o t, no_build l -> has_trees o t -> exists calls, has_trees (fold_left (r_call call) l o) (after call t calls).
  Proof.
    induction l as [|c l IH]; intros o t N T; [exists []; exact T|]. inversion N as [|c' l' N1 N2]; subst. cbn [fold_left].
    destruct c as [h m k sp sp2 kw| |py data a]; [| contradiction N1; reflexivity |].
    - apply IH; [exact N2|]. cbn [r_call]. unfold registry_instr. destruct (make_decoder h m k sp sp2 kw) as [d|e]; [|exact T].
      cbn [fst]. unfold add_decoder. destruct (d_is32 d); exact T.
    - destruct (IH (r_call call o (RDecode py data a)) (fst (decode call py t data a)) N2) as [calls C]; [apply decode_trees, T|].
      exists ((py, data, a) :: calls). exact C.
  Qed.
  Lemma build_ok : forall l, exists t, build (added l) = Ok t /\
    snd (registry_build (r_history call l)) = Ok tt /\ has_trees (fst (registry_build (r_history call l))) t.
  Proof.
    intros l. destruct (C26_build_proof H (added l) (added_made l)) as [[t E] _]. exists t. split; [exact E|].
    destruct (r_lists l registry_new) as [A B]. cbn [registry_new rg_decoders16 rg_decoders32 app] in A, B. fold (r_history call l) in A, B.
    unfold build in E.
    assert (L : (List.length (rg_decoders16 (r_history call l)) + List.length (rg_decoders32 (r_history call l)))%nat = List.length (added l)).
    { rewrite A, B. unfold registered16, registered32. clear. induction (added l) as [|d ds IH]; [reflexivity|]. cbn [filter]. destruct (d_is32 d); cbn [negb List.length]; lia. }
    unfold registry_build. rewrite L, A, B. cbv zeta. cbn [rg_decoders32].
    destruct (build_tree _ (registered16 (added l))) as [t16|]; [|discriminate]. cbn [bind] in E.
    destruct (build_tree _ (registered32 (added l))) as [t32|]; [|discriminate]. cbn [bind] in E. injection E as <-. split; [reflexivity|]. split; reflexivity.
  Qed.
End Registry.

(*@doc C76: [build] always succeeds, and from then on, until the next [build], decoding is
decided by the decoders added before it -- whatever is added or decoded in between. @*)
Lemma C76_built_proof : forall (H : Type) call (before since : list (rcall H)) py data a, no_build since ->
  snd (registry_build (r_history call before)) = Ok tt /\
  exists t, build (added before) = Ok t /\
    snd (registry_decode call py data a (r_history call (before ++ RBuild :: since))) = snd (decode call py t data a).
Proof.
  intros H call l l' py data a N. destruct (build_ok call l) as (t & E & O & T). split; [exact O|]. exists t. split; [exact E|].
  unfold r_history in *. rewrite fold_left_app. cbn [fold_left r_call]. destruct (trees_after call l' _ t N T) as [calls C].
  rewrite (proj1 (decode_trees call py data a _ _ C)). apply C29_history_proof.
Qed.
(*@ex
Example C76_built_ex : let add1 := RInstr 1 "one" Instruction "0000 0000 a(8)" None [] in let add2 := RInstr 2 "two" Instruction "0000 0001 a(8)" None [] in
  let call := fun (_ : pyver) (_ : Z) i (_ : list (string * bs)) => Ok i in
  seen i_mnemonic (snd (registry_decode call Py3 [5; 0] 0 (r_history call [add1; RBuild; add2]))) = Ok "one"%string /\
  snd (registry_decode call Py3 [5; 1] 0 (r_history call [add1; RBuild; add2])) = Err UndefinedInstructionError /\
  seen i_mnemonic (snd (registry_decode call Py3 [5; 1] 0 (r_history call [add1; RBuild; add2; RBuild]))) = Ok "two"%string.
Proof. repeat split; vm_compute; reflexivity. Qed.
@*)
(*@doc C76: before the first [build] complete instructions raise AttributeError, and short data
raises the errors of C27. @*)
Lemma C76_unbuilt_proof : forall (H : Type) call (l : list (rcall H)) py a b0 b1 b2 b3 rest, no_build l -> 0 <= b0 < 256 -> 0 <= b1 < 256 ->
  let dec data := snd (registry_decode call py data a (r_history call l)) in
  dec [] = Err AssertionError /\ dec [b0] = Err AssertionError /\
  (~ In (b1 / 8) [29; 30; 31] -> dec (b0 :: b1 :: rest) = Err AttributeError) /\
  (In (b1 / 8) [29; 30; 31] -> dec [b0; b1] = Err UndefinedInstructionError /\ dec [b0; b1; b2] = Err UndefinedInstructionError /\
    (0 <= b2 < 256 -> 0 <= b3 < 256 -> dec (b0 :: b1 :: b2 :: b3 :: rest) = Err AttributeError)).
Proof.
  intros H call l py a b0 b1 b2 b3 rest N H0 H1.
  assert (T : rg_tree16 (r_history call l) = None /\ rg_tree32 (r_history call l) = None).
  { unfold r_history. assert (G : forall o : registry H, rg_tree16 o = None /\ rg_tree32 o = None ->
      rg_tree16 (fold_left (r_call call) l o) = None /\ rg_tree32 (fold_left (r_call call) l o) = None).
    { induction N as [|c l N1 N IH]; intros o [A B]; [split; assumption|]. cbn [fold_left]. apply IH.
      destruct c as [h m k sp sp2 kw| |py' data' a']; [| contradiction N1; reflexivity |]; cbn [r_call].
      - unfold registry_instr. destruct (make_decoder h m k sp sp2 kw) as [d|e]; [|split; assumption]. cbn [fst]. unfold add_decoder. destruct (d_is32 d); split; assumption.
      - unfold registry_decode. destruct (negb _); [split; assumption|]. destruct (bytes_to_le16 data' 0); [|split; assumption].
        destruct (is_32bit_prefix _).
        + destruct (_ <? 4); [split; assumption|]. destruct (bytes_to_le16 data' 2); [|split; assumption]. rewrite B. cbn [opt_decode fst rg_tree16 rg_tree32]. split; [exact A|reflexivity].
        + rewrite A. cbn [opt_decode fst rg_tree16 rg_tree32]. split; [reflexivity|exact B]. }
    apply G. split; reflexivity. }
  destruct T as [T16 T32].
  assert (L : forall r, negb (2 <=? Z.of_nat (List.length (b0 :: b1 :: r))) = false) by (intro r; cbn [List.length]; lia).
  assert (B : bytes_to_le16 [b0; b1] 0 = Ok (b0 + 256 * b1)).
  { rewrite bytes16_at; [reflexivity | lia | cbn [List.length]; lia | repeat (apply Forall_cons; [assumption|]); apply Forall_nil]. }
  assert (B' : forall r, bytes_to_le16 (b0 :: b1 :: r) 0 = Ok (b0 + 256 * b1)) by (intro r; rewrite le16_first; exact B).
  pose proof (prefix_byte b0 b1 H0 H1) as X. cbv zeta. cbn [In]. split; [reflexivity|]. split; [reflexivity|]. split; intro I.
  - unfold registry_decode. rewrite L, B'. replace (is_32bit_prefix (b0 + 256 * b1)) with false by (rewrite X; lia). rewrite T16. reflexivity.
  - assert (X' : is_32bit_prefix (b0 + 256 * b1) = true) by (rewrite X; lia). split; [|split; [|intros H2 H3]]; unfold registry_decode; rewrite L, B', X'; [reflexivity|reflexivity|].
    replace (Z.of_nat (List.length (b0 :: b1 :: b2 :: b3 :: rest)) <? 4) with false by (cbn [List.length]; lia).
    rewrite le16_second, bytes16_at; [|lia|cbn [List.length]; lia|repeat (apply Forall_cons; [assumption|]); apply Forall_nil]. rewrite T32. reflexivity.
Qed.
(*@ex
Example C76_unbuilt_ex : let call := fun (_ : pyver) (_ : Z) i (_ : list (string * bs)) => Ok i in
  let o := r_history call [RInstr 1 "one" Instruction "0000 0000 a(8)" None []; RDecode Py3 [1] 0] in
  snd (registry_decode call Py3 [5; 0] 0 o) = Err AttributeError /\ snd (registry_decode call Py3 [5; 240; 0] 0 o) = Err UndefinedInstructionError /\
  snd (registry_decode call Py3 [5; 240; 0; 0] 0 o) = Err AttributeError.
Proof. repeat split; vm_compute; reflexivity. Qed.
@*)
(*@doc C76: registration: a valid format adds its decoder last in the list of its width; an invalid
one raises what the constructor raises and adds nothing; neither building nor decoding adds or
removes a decoder. @*)
Lemma C76_registered_proof : forall (H : Type) call (l : list (rcall H)) h m k spec spec2 kw,
  rg_decoders16 (r_history call l) = filter (fun d => negb (d_is32 d)) (added l) /\
  rg_decoders32 (r_history call l) = filter d_is32 (added l) /\
  registry_instr h m k spec spec2 kw (r_history call l) =
    match make_decoder h m k spec spec2 kw with
    | Ok _ => (r_history call (l ++ [RInstr h m k spec spec2 kw]), Ok tt)
    | Err e => (r_history call l, Err e)
    end.
Proof.
  intros H call l h m k spec spec2 kw. destruct (r_lists call l registry_new) as [A B]. split; [exact A|]. split; [exact B|].
  unfold r_history at 2. rewrite fold_left_app. cbn [fold_left r_call]. fold (r_history call l).
  unfold registry_instr. destruct (make_decoder h m k spec spec2 kw); reflexivity.
Qed.
(*@ex
Example C76_registered_ex : let call := fun (_ : pyver) (_ : Z) i (_ : list (string * bs)) => Ok i in
  snd (registry_instr 1 "one" Instruction "0000 0000 a(7)" None [] (r_history call [])) = Err AssertionError /\
  List.length (rg_decoders32 (r_history call [RInstr 1 "w" Instruction "1111 0000 a(8)" (Some "b(16)"%string) []; RInstr 2 "n" Instruction "0000 0000 a(8)" None []])) = 1%nat.
Proof. split; vm_compute; reflexivity. Qed.
@*)

(** ** Defaults and texts *)

(*@doc C77: the fixed answers of the CPU model, and the object a decoder creates. @*)
Lemma C77_defaults_proof :
  has_dsp_ext = false /\ has_fp_ext = false /\ in_it_block = false /\
  forall k m w wide, new_insn k m w wide = mkinsn m w wide 0 k [] (klass_attrs k).
Proof. repeat split. Qed.
(*@ex
Example C77_defaults_ex : i_address (new_insn Branch "b" 57344 false) = 0 /\ a_cond (i_attrs (new_insn Branch "b" 57344 false)) = Some 15.
Proof. split; reflexivity. Qed.
@*)
(*@doc C77: [dump] prints four lines, every register r0 to pc once under its name, with eight
hexadecimal digits. @*)
Lemma C77_dump_proof : forall c, regs_ok c -> exists h,
  (forall k, 0 <= k <= 15 -> denotes 16 (h k) (reg c k) /\ strlen (h k) = 8) /\
  cpu_dump c = Ok
   ["r0=" ++ h 0 ++ "    r4=" ++ h 4 ++ "    r8 =" ++ h 8 ++ "   r12=" ++ h 12;
    "r1=" ++ h 1 ++ "    r5=" ++ h 5 ++ "    r9 =" ++ h 9 ++ "   sp =" ++ h 13;
    "r2=" ++ h 2 ++ "    r6=" ++ h 6 ++ "    r10=" ++ h 10 ++ "   lr =" ++ h 14;
    "r3=" ++ h 3 ++ "    r7=" ++ h 7 ++ "    r11=" ++ h 11 ++ "   pc =" ++ h 15]%string.
Proof.
  intros c R. exists (fun k => fmt_0x 8 (reg c k)). split.
  - intros k K. destruct (regs_ok_reg c k R ltac:(left; lia)) as [_ B]. split; [apply fmt_0x_denotes; lia|apply fmt_0x_length; [lia|]]. change (16 ^ 8) with (2 ^ 32). exact B.
  - assert (V : forall k, 0 <= k <= 15 -> reg c k mod 2 ^ 32 = reg c k).
    { intros k K. apply Z.mod_small. apply (regs_ok_reg c k R). left; lia. }
    unfold cpu_dump. rewrite !r_get_ok by (assumption || lia). unfold get_sp, get_lr, get_pc.
    rewrite (read_index c (RName "sp") 13), (read_index c (RName "lr") 14), (read_index c (RName "pc") 15) by (reflexivity || exact R || (left; lia)).
    unfold dump_line. cbn [map_res bind bits bv join]. rewrite !V by lia. rewrite !append_assoc. reflexivity.
Qed.
(*@ex
Example C77_dump_ex : exists t, cpu_dump (write_register cpu_new (RName "lr") (NInt 4294967295)) = Ok (t :: ["r1=00000000    r5=00000000    r9 =00000000   sp =00000000"; "r2=00000000    r6=00000000    r10=00000000   lr =ffffffff"; "r3=00000000    r7=00000000    r11=00000000   pc =00000000"])%string.
Proof. eexists. vm_compute. reflexivity. Qed.
@*)
(*@doc C77: [repr] of the CPU model: pc, xPSR and r0-r14 as hexadecimal numbers. @*)
Lemma C77_repr_proof : forall c name ident, regs_ok c -> exists h,
  (forall k, 0 <= k <= 16 -> canonical 16 (h k) (reg c k)) /\
  cpu_repr name ident c = Ok ("<" ++ name ++ "@" ++ ident ++ " pc=" ++ h 15 ++ " xpsr=" ++ h 16 ++ " rN=[" ++
    h 0 ++ " " ++ h 1 ++ " " ++ h 2 ++ " " ++ h 3 ++ " " ++ h 4 ++ " " ++ h 5 ++ " " ++ h 6 ++ " " ++ h 7 ++ " " ++
    h 8 ++ " " ++ h 9 ++ " " ++ h 10 ++ " " ++ h 11 ++ " " ++ h 12 ++ " " ++ h 13 ++ " " ++ h 14 ++ "]>")%string.
Proof.
  intros c name ident R. exists (fun k => fmt_x (reg c k)). split.
  - intros k K. destruct (regs_ok_reg c k R ltac:(left; lia)) as [_ B]. apply fmt_x_canonical. lia.
  - assert (V : forall k, 0 <= k <= 16 -> reg c k mod 2 ^ 32 = reg c k).
    { intros k K. apply Z.mod_small. apply (regs_ok_reg c k R). left; lia. }
    unfold cpu_repr. unfold get_pc. rewrite (read_index c (RName "pc") 15) by (reflexivity || exact R || (left; lia)). rewrite xpsr_bits by exact R.
    change (py_range 15) with [0; 1; 2; 3; 4; 5; 6; 7; 8; 9; 10; 11; 12; 13; 14]. cbn [map_res bind].
    rewrite !r_get_ok by (assumption || lia). unfold bs_unsigned. cbn [bind bits bv join]. rewrite !V by lia. rewrite !append_assoc. reflexivity.
Qed.
(*@ex
Example C77_repr_ex : cpu_repr "CpuModel" "0x7f" (write_register cpu_new (RName "lr") (NInt 4294967295)) = Ok "<CpuModel@0x7f pc=0 xpsr=1000000 rN=[0 0 0 0 0 0 0 0 0 0 0 0 0 0 ffffffff]>"%string.
Proof. vm_compute. reflexivity. Qed.
@*)
(*@doc C77: [repr] of an instruction: the mnemonic and the word with as many hexadecimal digits as
the instruction has. @*)
Lemma C77_insn_repr_proof : forall ident i, 0 <= i_word i < 2 ^ (8 * i_size i) -> exists h,
  denotes 16 h (i_word i) /\ strlen h = 2 * i_size i /\
  insn_repr ident i = ("<Instruction@0x" ++ ident ++ " " ++ i_mnemonic i ++ "  " ++ h ++ ">")%string.
Proof.
  intros ident i R. unfold insn_repr, i_size in *. destruct (i_is32 i).
  - exists (fmt_0x 8 (i_word i)). split; [apply fmt_0x_denotes; lia|]. split; [apply fmt_0x_length; [lia|exact R]|]. rewrite !append_assoc. reflexivity.
  - exists (fmt_0x 4 (i_word i)). split; [apply fmt_0x_denotes; lia|]. split; [apply fmt_0x_length; [lia|exact R]|]. rewrite !append_assoc. reflexivity.
Qed.
(*@ex
Example C77_insn_repr_ex : insn_repr "7f" (new_insn Instruction "nop" 48896 false) = "<Instruction@0x7f nop  bf00>"%string.
Proof. vm_compute. reflexivity. Qed.
@*)
