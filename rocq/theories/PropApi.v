(** Property statements; each is proved in ApiThms.v under the same name.
    Written by tools/genprops.py. *)
From Coq Require Import ZArith List String Bool Lia.
From Verif Require Import DelegateModel RegistryModel SpecBits SpecArm SpecCpu SpecDecoder SpecApi ApiThms.
Local Open Scope Z_scope.

(** C75: the CPU model asks its delegate exactly one question per access, for the register
with the index of the name and with addresses and values as integers, and otherwise behaves
the same when the delegate writes down the questions. *)
Theorem C75_calls : forall S (d : delegate S) g s l, g_call (Some (recording d)) g (s, l) = (g_call (Some d) g s, l ++ [asks g]).
Proof. exact C75_calls_proof. Qed.
Print Assumptions C75_calls.

Example C75_calls_ex : g_call (Some (recording ex_delegate)) (GWriteReg (RName "XPSR") (NBits (bits 8 300))) ((5, 0), []) = ((44, 1), [DWriteReg (Some 16) 44]) /\
  g_call (Some (recording ex_delegate)) (GReadMem (NInt 8) 16) ((5, 0), []) = ((5, 0), [DReadMem 8 16]).
Proof. split; reflexivity. Qed.

(** C75: what it returns is the delegate's answer as a bitstring, of the width asked for when
memory is read. *)
Theorem C75_answers : forall S (d : delegate S) s,
  (forall r s' v b, del_read_register d (register_name_to_index r) s = (s', Ok v) -> bs_init v None = Ok b -> g_read_register (Some d) r s = (s', Ok (Some b))) /\
  (forall a n s' v b, del_read_memory d (num_val a) n s = (s', Ok v) -> bs_init v (Some n) = Ok b -> g_read_memory (Some d) a n s = (s', Ok (Some b))) /\
  (forall r s' e, del_read_register d (register_name_to_index r) s = (s', Err e) -> g_read_register (Some d) r s = (s', Err e)) /\
  (forall a n s' e, del_read_memory d (num_val a) n s = (s', Err e) -> g_read_memory (Some d) a n s = (s', Err e)) /\
  (forall r v, g_write_register (Some d) r v s = del_write_register d (register_name_to_index r) (num_val v) s) /\
  (forall a v n, g_write_memory (Some d) a v n s = del_write_memory d (num_val a) (num_val v) n s).
Proof. exact C75_answers_proof. Qed.
Print Assumptions C75_answers.

Example C75_answers_ex : g_read_register (Some ex_delegate) (RName "sp") (7, 0) = ((7, 1), Ok (Some (bits 32 7))) /\
  g_read_memory (Some ex_delegate) (NInt 8) 16 (7, 0) = ((7, 0), Ok (Some (bits 16 0))).
Proof. split; reflexivity. Qed.

(** C75: register files cpu.r and cpu.s: which index is read and written, and when KeyError is
raised (the float registers are read at the wrong index, see C39). *)
Theorem C75_files : forall S (d : option (delegate S)) k s v,
  (g_ri_get d 0 15 k s = if 15 <? k then (s, Err KeyError) else g_read_register d (RIndex k) s) /\
  (g_ri_set d 0 15 k v s = if 15 <? k then (s, Err KeyError) else g_write_register d (RIndex k) v s) /\
  (g_ri_get d 64 95 k s = if -33 <? k then (s, Err KeyError) else g_read_register d (RIndex (128 + k)) s) /\
  (g_ri_set d 64 95 k v s = if 31 <? k then (s, Err KeyError) else g_write_register d (RIndex (64 + k)) v s).
Proof. exact C75_files_proof. Qed.
Print Assumptions C75_files.

Example C75_files_ex : g_ri_get (Some ex_delegate) 0 15 3 (7, 0) = ((7, 1), Ok (Some (bits 32 7))) /\ g_ri_get (Some ex_delegate) 0 15 16 (7, 0) = ((7, 0), Err KeyError) /\
  g_ri_get (Some ex_delegate) 64 95 0 (7, 0) = ((7, 0), Err KeyError).
Proof. repeat split; reflexivity. Qed.

(** C75: with any delegate that keeps xPSR, the flags are four independent bits of it: reading
one gives its bit, setting one changes exactly its bit (the value counts modulo 2). *)
Theorem C75_flags : forall S (d : delegate S) Inv V s f, keeps d 16 Inv V -> Inv s ->
  (exists s', g_apsr_get (Some d) f s = (s', Ok (bitv (Z.testbit (V s) (flag_bit f)))) /\ Inv s' /\ V s' = V s) /\
  forall v b, (v = VInt b \/ exists x, v = VBits x /\ wf x /\ bv x = b) ->
    exists s', g_apsr_set (Some d) f v s = (s', Ok tt) /\ Inv s' /\
      forall i, 0 <= i -> Z.testbit (V s') i = if i =? flag_bit f then Z.odd b else Z.testbit (V s) i.
Proof. exact C75_flags_proof. Qed.
Print Assumptions C75_flags.

Example C75_flags_ex : keeps ex_delegate 16 (fun s => 0 <= fst s < 2 ^ 32) fst /\
  g_apsr_set (Some ex_delegate) FC (VInt 3) (5, 0) = ((536870917, 2), Ok tt) /\ g_apsr_get (Some ex_delegate) FC (536870917, 2) = ((536870917, 3), Ok (bits 1 1)).
Proof.
  split; [|split; reflexivity]. intros [v n] R. cbn [fst] in *. split; [exact R|]. split; [exists (v, n + 1); repeat split; apply R|].
  intros w W. exists (w, n + 1). repeat split; apply W.
Qed.

(** C75: the mock delegate keeps xPSR, so C38 is the special case. *)
Theorem C75_mock_keeps : keeps mock_delegate 16 regs_ok (fun c => reg c 16).
Proof. exact C75_mock_keeps_proof. Qed.
Print Assumptions C75_mock_keeps.

Example C75_mock_keeps_ex : g_apsr_set (Some mock_delegate) FZ (VInt 1) cpu_new = (set_xpsr cpu_new (NInt 1090519040), Ok tt).
Proof. reflexivity. Qed.

(** C75: with the mock delegate every access is the one of the machine that all other
properties are about. *)
Theorem C75_mock : forall c, let d := Some mock_delegate in
  (forall r, g_read_register d r c = reads Some c (read_register c r)) /\
  (forall r v, g_write_register d r v c = (write_register c r v, Ok tt)) /\
  (forall a n, g_read_memory d a n c = reads Some c (read_memory c a n)) /\
  (forall a v n, g_write_memory d a v n c = writes c (write_memory c a v n)) /\
  (forall k, g_ri_get d 0 15 k c = reads Some c (r_get c k)) /\ (forall k v, g_ri_set d 0 15 k v c = writes c (r_set c k v)) /\
  (forall k, g_ri_get d 64 95 k c = reads Some c (s_get c k)) /\ (forall k v, g_ri_set d 64 95 k v c = writes c (s_set c k v)) /\
  g_pc_for_instr d c = (c, pc_for_instr c) /\ g_is_privileged d c = (c, is_privileged c) /\ g_ipsr d c = (c, get_ipsr c) /\
  (forall f, g_apsr_get d f c = (c, apsr_get c f)) /\ (forall f v, g_apsr_set d f v c = writes c (apsr_set c f v)).
Proof. exact C75_mock_proof. Qed.
Print Assumptions C75_mock.

Example C75_mock_ex : g_read_register (Some mock_delegate) (RName "xpsr") cpu_new = (cpu_new, Ok (Some (bits 32 16777216))) /\
  g_ri_set (Some mock_delegate) 0 15 13 (NInt 7) cpu_new = (set_sp cpu_new (NInt 4), Ok tt).
Proof. split; reflexivity. Qed.

(** C75: without a delegate reads give None, writes do nothing, and whatever computes with a
register raises TypeError. *)
Theorem C75_none : forall S (s : S), let d : option (delegate S) := None in
  (forall r, g_read_register d r s = (s, Ok None)) /\ (forall r v, g_write_register d r v s = (s, Ok tt)) /\
  (forall a n, g_read_memory d a n s = (s, Ok None)) /\ (forall a v n, g_write_memory d a v n s = (s, Ok tt)) /\
  g_pc_for_instr d s = (s, Err TypeError) /\ g_is_privileged d s = (s, Err TypeError) /\ g_ipsr d s = (s, Err TypeError) /\
  (forall f, g_apsr_get d f s = (s, Err TypeError)) /\
  forall f v, g_apsr_set d f v s = (s, Err (match bs_init v (Some 1) with Ok _ => TypeError | Err e => e end)).
Proof. exact C75_none_proof. Qed.
Print Assumptions C75_none.

Example C75_none_ex : g_apsr_set None FN (VInt 1) 0 = (0, Err TypeError) /\ g_apsr_set None FN (VStr "x") 0 = (0, Err ValueError).
Proof. split; reflexivity. Qed.

(** C75: with the delegate base class every register is the empty bitstring and memory is zero;
nothing is stored, not even by setting a flag, which raises IndexError. *)
Theorem C75_base : forall S (s : S), let d := Some (base_delegate S) in
  (forall r, g_read_register d r s = (s, Ok (Some (bits 0 0)))) /\ (forall r v, g_write_register d r v s = (s, Ok tt)) /\
  (forall a n, 0 <= n -> g_read_memory d a n s = (s, Ok (Some (bits n 0)))) /\ (forall a v n, g_write_memory d a v n s = (s, Ok tt)) /\
  g_pc_for_instr d s = (s, Ok (bits 0 0)) /\ g_is_privileged d s = (s, Ok true) /\ g_ipsr d s = (s, Ok (bits 0 0)) /\
  (forall f, g_apsr_get d f s = (s, Ok (bits 1 0))) /\
  forall f v, g_apsr_set d f v s = (s, Err (match bs_init v (Some 1) with Ok _ => IndexError | Err e => e end)).
Proof. exact C75_base_proof. Qed.
Print Assumptions C75_base.

Example C75_base_ex : g_read_memory (Some (base_delegate Z)) (NInt 5) 8 0 = (0, Ok (Some (bits 8 0))) /\ g_apsr_set (Some (base_delegate Z)) FN (VInt 1) 0 = (0, Err IndexError).
Proof. split; reflexivity. Qed.

(** C75: the block accesses hand address, length and data to the delegate's method and its answer back,
whatever they are; without a delegate they do nothing, and with one that has no such method, as the
base class, they raise AttributeError.  With the mock they are the ones of the machine. *)
Theorem C75_blocks : forall S A D V (s : S) (a : A) (x : D),
  (forall (f : A -> D -> S -> S * res V), g_write_memory_block (Some (Some f)) a x s = (fst (f a x s), match snd (f a x s) with Ok _ => Ok tt | Err e => Err e end)) /\
  (forall (f : A -> D -> S -> S * res V), g_read_memory_block (Some (Some f)) a x s = (fst (f a x s), match snd (f a x s) with Ok v => Ok (Some v) | Err e => Err e end)) /\
  @g_write_memory_block S A D V None a x s = (s, Ok tt) /\ @g_read_memory_block S A D V None a x s = (s, Ok None) /\
  @g_write_memory_block S A D V (Some None) a x s = (s, Err AttributeError) /\ @g_read_memory_block S A D V (Some None) a x s = (s, Err AttributeError) /\
  (forall c k data, g_write_memory_block (Some (Some mock_block_write)) k data c = writes c (write_memory_block c k data)) /\
  (forall c k n, g_read_memory_block (Some (Some mock_block_read)) k n c = (c, Ok (Some (read_memory_block c k n)))).
Proof. exact C75_blocks_proof. Qed.
Print Assumptions C75_blocks.

Example C75_blocks_ex : g_write_memory_block (Some (Some (fun (a : Z) (l : list Z) (s : list Z) => (a :: l ++ s, Ok 5)))) 1 [2; 3] [4] = ([1; 2; 3; 4], Ok tt) /\
  g_read_memory_block (Some (Some (fun (a n s : Z) => (s + 1, Ok (a + n))))) 1 2 7 = (8, Ok (Some 3)).
Proof. split; reflexivity. Qed.

(** C76: [build] always succeeds, and from then on, until the next [build], decoding is
decided by the decoders added before it -- whatever is added or decoded in between. *)
Theorem C76_built : forall (H : Type) call (before since : list (rcall H)) py data a, no_build since ->
  snd (registry_build (r_history call before)) = Ok tt /\
  exists t, build (added before) = Ok t /\
    snd (registry_decode call py data a (r_history call (before ++ RBuild :: since))) = snd (decode call py t data a).
Proof. exact C76_built_proof. Qed.
Print Assumptions C76_built.

Example C76_built_ex : let add1 := RInstr 1 "one" Instruction "0000 0000 a(8)" None [] in let add2 := RInstr 2 "two" Instruction "0000 0001 a(8)" None [] in
  let call := fun (_ : pyver) (_ : Z) i (_ : list (string * bs)) => Ok i in
  seen i_mnemonic (snd (registry_decode call Py3 [5; 0] 0 (r_history call [add1; RBuild; add2]))) = Ok "one"%string /\
  snd (registry_decode call Py3 [5; 1] 0 (r_history call [add1; RBuild; add2])) = Err UndefinedInstructionError /\
  seen i_mnemonic (snd (registry_decode call Py3 [5; 1] 0 (r_history call [add1; RBuild; add2; RBuild]))) = Ok "two"%string.
Proof. repeat split; vm_compute; reflexivity. Qed.

(** C76: before the first [build] complete instructions raise AttributeError, and short data
raises the errors of C27. *)
Theorem C76_unbuilt : forall (H : Type) call (l : list (rcall H)) py a b0 b1 b2 b3 rest, no_build l -> 0 <= b0 < 256 -> 0 <= b1 < 256 ->
  let dec data := snd (registry_decode call py data a (r_history call l)) in
  dec [] = Err AssertionError /\ dec [b0] = Err AssertionError /\
  (~ In (b1 / 8) [29; 30; 31] -> dec (b0 :: b1 :: rest) = Err AttributeError) /\
  (In (b1 / 8) [29; 30; 31] -> dec [b0; b1] = Err UndefinedInstructionError /\ dec [b0; b1; b2] = Err UndefinedInstructionError /\
    (0 <= b2 < 256 -> 0 <= b3 < 256 -> dec (b0 :: b1 :: b2 :: b3 :: rest) = Err AttributeError)).
Proof. exact C76_unbuilt_proof. Qed.
Print Assumptions C76_unbuilt.

Example C76_unbuilt_ex : let call := fun (_ : pyver) (_ : Z) i (_ : list (string * bs)) => Ok i in
  let o := r_history call [RInstr 1 "one" Instruction "0000 0000 a(8)" None []; RDecode Py3 [1] 0] in
  snd (registry_decode call Py3 [5; 0] 0 o) = Err AttributeError /\ snd (registry_decode call Py3 [5; 240; 0] 0 o) = Err UndefinedInstructionError /\
  snd (registry_decode call Py3 [5; 240; 0; 0] 0 o) = Err AttributeError.
Proof. repeat split; vm_compute; reflexivity. Qed.

(** C76: registration: a valid format adds its decoder last in the list of its width; an invalid
one raises what the constructor raises and adds nothing; neither building nor decoding adds or
removes a decoder. *)
Theorem C76_registered : forall (H : Type) call (l : list (rcall H)) h m k spec spec2 kw,
  rg_decoders16 (r_history call l) = filter (fun d => negb (d_is32 d)) (added l) /\
  rg_decoders32 (r_history call l) = filter d_is32 (added l) /\
  registry_instr h m k spec spec2 kw (r_history call l) =
    match make_decoder h m k spec spec2 kw with
    | Ok _ => (r_history call (l ++ [RInstr h m k spec spec2 kw]), Ok tt)
    | Err e => (r_history call l, Err e)
    end.
Proof. exact C76_registered_proof. Qed.
Print Assumptions C76_registered.

Example C76_registered_ex : let call := fun (_ : pyver) (_ : Z) i (_ : list (string * bs)) => Ok i in
  snd (registry_instr 1 "one" Instruction "0000 0000 a(7)" None [] (r_history call [])) = Err AssertionError /\
  List.length (rg_decoders32 (r_history call [RInstr 1 "w" Instruction "1111 0000 a(8)" (Some "b(16)"%string) []; RInstr 2 "n" Instruction "0000 0000 a(8)" None []])) = 1%nat.
Proof. split; vm_compute; reflexivity. Qed.

(** C77: the fixed answers of the CPU model, and the object a decoder creates. *)
Theorem C77_defaults :
  has_dsp_ext = false /\ has_fp_ext = false /\ in_it_block = false /\
  forall k m w wide, new_insn k m w wide = mkinsn m w wide 0 k [] (klass_attrs k).
Proof. exact C77_defaults_proof. Qed.
Print Assumptions C77_defaults.

Example C77_defaults_ex : i_address (new_insn Branch "b" 57344 false) = 0 /\ a_cond (i_attrs (new_insn Branch "b" 57344 false)) = Some 15.
Proof. split; reflexivity. Qed.

(** C77: [dump] prints four lines, every register r0 to pc once under its name, with eight
hexadecimal digits. *)
Theorem C77_dump : forall c, regs_ok c -> exists h,
  (forall k, 0 <= k <= 15 -> denotes 16 (h k) (reg c k) /\ strlen (h k) = 8) /\
  cpu_dump c = Ok
   ["r0=" ++ h 0 ++ "    r4=" ++ h 4 ++ "    r8 =" ++ h 8 ++ "   r12=" ++ h 12;
    "r1=" ++ h 1 ++ "    r5=" ++ h 5 ++ "    r9 =" ++ h 9 ++ "   sp =" ++ h 13;
    "r2=" ++ h 2 ++ "    r6=" ++ h 6 ++ "    r10=" ++ h 10 ++ "   lr =" ++ h 14;
    "r3=" ++ h 3 ++ "    r7=" ++ h 7 ++ "    r11=" ++ h 11 ++ "   pc =" ++ h 15]%string.
Proof. exact C77_dump_proof. Qed.
Print Assumptions C77_dump.

Example C77_dump_ex : exists t, cpu_dump (write_register cpu_new (RName "lr") (NInt 4294967295)) = Ok (t :: ["r1=00000000    r5=00000000    r9 =00000000   sp =00000000"; "r2=00000000    r6=00000000    r10=00000000   lr =ffffffff"; "r3=00000000    r7=00000000    r11=00000000   pc =00000000"])%string.
Proof. eexists. vm_compute. reflexivity. Qed.

(** C77: [repr] of the CPU model: pc, xPSR and r0-r14 as hexadecimal numbers. *)
Theorem C77_repr : forall c name ident, regs_ok c -> exists h,
  (forall k, 0 <= k <= 16 -> canonical 16 (h k) (reg c k)) /\
  cpu_repr name ident c = Ok ("<" ++ name ++ "@" ++ ident ++ " pc=" ++ h 15 ++ " xpsr=" ++ h 16 ++ " rN=[" ++
    h 0 ++ " " ++ h 1 ++ " " ++ h 2 ++ " " ++ h 3 ++ " " ++ h 4 ++ " " ++ h 5 ++ " " ++ h 6 ++ " " ++ h 7 ++ " " ++
    h 8 ++ " " ++ h 9 ++ " " ++ h 10 ++ " " ++ h 11 ++ " " ++ h 12 ++ " " ++ h 13 ++ " " ++ h 14 ++ "]>")%string.
Proof. exact C77_repr_proof. Qed.
Print Assumptions C77_repr.

Example C77_repr_ex : cpu_repr "CpuModel" "0x7f" (write_register cpu_new (RName "lr") (NInt 4294967295)) = Ok "<CpuModel@0x7f pc=0 xpsr=1000000 rN=[0 0 0 0 0 0 0 0 0 0 0 0 0 0 ffffffff]>"%string.
Proof. vm_compute. reflexivity. Qed.

(** C77: [repr] of an instruction: the mnemonic and the word with as many hexadecimal digits as
the instruction has. *)
Theorem C77_insn_repr : forall ident i, 0 <= i_word i < 2 ^ (8 * i_size i) -> exists h,
  denotes 16 h (i_word i) /\ strlen h = 2 * i_size i /\
  insn_repr ident i = ("<Instruction@0x" ++ ident ++ " " ++ i_mnemonic i ++ "  " ++ h ++ ">")%string.
Proof. exact C77_insn_repr_proof. Qed.
Print Assumptions C77_insn_repr.

Example C77_insn_repr_ex : insn_repr "7f" (new_insn Instruction "nop" 48896 false) = "<Instruction@0x7f nop  bf00>"%string.
Proof. vm_compute. reflexivity. Qed.
