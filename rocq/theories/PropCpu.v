(** Property statements; each is proved in CpuThms.v under the same name.
    Written by tools/genprops.py. *)
From Verif Require Import BitstringModel SpecBits SpecArm HelpersModel CpuModel SpecCpu CpuThms.

(** C34: a read of 8, 16 or 32 bits at a mapped address returns the bytes stored
there, least significant first; IndexError if the region ends before them. *)
Theorem C34_read : forall c a size i m, mem_ok c -> located c a i m -> size = 8 \/ size = 16 \/ size = 32 ->
  read_memory c (NInt a) size =
  match take_cells c i (a - m_start m) (Z.to_nat (size / 8)) with
  | Some l => Ok (bits size (le_number l))
  | None => Err IndexError
  end.
Proof. exact C34_read_proof. Qed.
Print Assumptions C34_read.

Example C34_read_ex : mem_ok ex_cpu /\ located ex_cpu 257 1 (mkmem 256 259 [17; 34; 51; 68]) /\
  read_memory ex_cpu (NInt 257) 16 = Ok (bits 16 13090) /\ read_memory ex_cpu (NInt 257) 32 = Err IndexError.
Proof.
  split; [repeat constructor; discriminate|]. split; [|split; reflexivity].
  split; [reflexivity|]. split; [split; discriminate|]. intros [|[|j]] m' Hj E.
  - injection E as <-. intros [_ H]. apply H. reflexivity.
  - inversion Hj. inversion H0.
  - inversion Hj. inversion H0.
Qed.

(** C34: what was written is read back, modulo 2^size. *)
Theorem C34_read_after_write : forall c a v size i m, mem_ok c -> located c a i m ->
  (size = 8 /\ 0 <= v < 256) \/ size = 16 \/ size = 32 ->
  exists c', write_memory c (NInt a) (NInt v) size = Ok c' /\ read_memory c' (NInt a) size = Ok (bits size v).
Proof. exact C34_read_after_write_proof. Qed.
Print Assumptions C34_read_after_write.

Example C34_read_after_write_ex : exists c', write_memory ex_cpu (NInt 2) (NInt (-2)) 32 = Ok c' /\
  read_memory c' (NInt 2) 32 = Ok (bits 32 4294967294) /\ read_memory c' (NInt 5) 16 = Ok (bits 16 2047).
Proof. eexists. split; [reflexivity|]. split; reflexivity. Qed.

(** C34, histories: after any sequence of writes each byte of each region is the
one put there by the last write covering it, otherwise the initial one. *)
Theorem C34_history : forall c ws, mem_ok c -> Forall wr_ok ws ->
  exists c', run_writes c ws = Ok c' /\ mem_ok c' /\ layout c' = layout c /\ c_regs c' = c_regs c /\
  forall i o b, cell c' i o = b <-> last_byte c i o ws b.
Proof. exact C34_history_proof. Qed.
Print Assumptions C34_history.

Example C34_history_ex : exists c', run_writes ex_cpu [mkwr 0 2863311530 32; mkwr 1 255 8; mkwr 3 4660 16] = Ok c' /\
  c_mem c' = [mkmem 0 7 [170; 255; 170; 52; 18; 6; 7; 8]; mkmem 256 259 [17; 34; 51; 68]].
Proof. eexists. split; reflexivity. Qed.

(** C34: an address or a value given as a bitstring means its unsigned value. *)
Theorem C34_bitstring_arguments : forall c a v size,
  read_memory c (NBits a) size = read_memory c (NInt (bv a)) size /\
  (forall d, write_memory c (NBits a) d size = write_memory c (NInt (bv a)) d size) /\
  (forall d, write_memory c d (NBits v) size = write_memory c d (NInt (bv v)) size).
Proof. exact C34_bitstring_arguments_proof. Qed.
Print Assumptions C34_bitstring_arguments.

Example C34_bitstring_arguments_ex : read_memory ex_cpu (NBits (bits 32 258)) 8 = Ok (bits 8 51).
Proof. reflexivity. Qed.

(** C34: the fixed-size accessors. *)
Theorem C34_sized : forall c a v,
  read8 c a = read_memory c a 8 /\ read16 c a = read_memory c a 16 /\ read32 c a = read_memory c a 32 /\
  write8 c a v = write_memory c a v 8 /\ write16 c a v = write_memory c a v 16 /\ write32 c a v = write_memory c a v 32.
Proof. exact C34_sized_proof. Qed.
Print Assumptions C34_sized.

Example C34_sized_ex : read8 ex_cpu (NInt 1) = Ok (bits 8 2) /\ read16 ex_cpu (NInt 1) = Ok (bits 16 770).
Proof. split; reflexivity. Qed.

(** C34: a byte write of a number that is not a byte is rejected; sizes other
than 8, 16, 32 write nothing and read as 0. *)
Theorem C34_rejects : forall c a v size i m, mem_ok c -> located c a i m ->
  (~ 0 <= v < 256 -> write_memory c (NInt a) (NInt v) 8 = Err ValueError) /\
  (size <> 8 -> size <> 16 -> size <> 32 ->
   write_memory c (NInt a) (NInt v) size = Ok c /\
   (0 <= size -> read_memory c (NInt a) size = Ok (bits size 0))).
Proof. exact C34_rejects_proof. Qed.
Print Assumptions C34_rejects.

Example C34_rejects_ex : write_memory ex_cpu (NInt 1) (NInt 256) 8 = Err ValueError /\
  read_memory ex_cpu (NInt 1) 24 = Ok (bits 24 0).
Proof. split; reflexivity. Qed.

(** C34: blocks.  A block write that starts in a mapped region is read back, and
changes exactly the bytes it covers. *)
Theorem C34_block : forall c a data i m, mem_ok c -> located c a i m -> Forall (fun x => 0 <= x < 256) data ->
  exists c', write_memory_block c a data = Ok c' /\
    read_memory_block c' a (Z.of_nat (List.length data)) = Some data /\
    mem_ok c' /\ layout c' = layout c /\ c_regs c' = c_regs c /\
    forall j o, cell c' j o =
      let off := a - m_start m in
      if (Nat.eqb j i && (off <=? o) && (o <? off + Z.of_nat (List.length data)))%bool
      then nth_error data (Z.to_nat (o - off)) else cell c j o.
Proof. exact C34_block_proof. Qed.
Print Assumptions C34_block.

Example C34_block_ex : exists c', write_memory_block ex_cpu 258 [9; 8; 7] = Ok c' /\
  read_memory_block c' 257 4 = Some [34; 9; 8; 7].
Proof. eexists. split; reflexivity. Qed.

(** C34: block reads return the stored bytes that exist, in address order. *)
Theorem C34_block_read : forall c a n i m, mem_ok c -> located c a i m -> 0 <= n ->
  read_memory_block c a n = Some (firstn (Z.to_nat n) (skipn (Z.to_nat (a - m_start m)) (m_data m))).
Proof. exact C34_block_read_proof. Qed.
Print Assumptions C34_block_read.

Example C34_block_read_ex : read_memory_block ex_cpu 6 10 = Some [7; 8].
Proof. reflexivity. Qed.

(** C35: a write changes exactly the bytes [addr, addr+size/8) of the region
containing addr; other bytes, regions, address ranges and registers stay. *)
Theorem C35_write : forall c a v size i m, mem_ok c -> located c a i m ->
  (size = 8 /\ 0 <= v < 256) \/ size = 16 \/ size = 32 ->
  exists c', write_memory c (NInt a) (NInt v) size = Ok c' /\
    c_regs c' = c_regs c /\ layout c' = layout c /\ mem_ok c' /\
    forall j o, cell c' j o =
      let off := a - m_start m in
      if (Nat.eqb j i && (off <=? o) && (o <? off + size / 8))%bool
      then Some ((v / 256 ^ (o - off)) mod 256) else cell c j o.
Proof. exact C35_write_proof. Qed.
Print Assumptions C35_write.

Example C35_write_ex : exists c', write_memory ex_cpu (NInt 257) (NInt 43981) 16 = Ok c' /\
  c_mem c' = [mkmem 0 7 [1; 2; 3; 4; 5; 6; 7; 8]; mkmem 256 259 [17; 205; 171; 68]].
Proof. eexists. split; reflexivity. Qed.

(** C35: unmapped addresses ignore writes and read as 0; a block read gives
nothing. *)
Theorem C35_unmapped : forall c a v size data n, unmapped c a ->
  write_memory c (NInt a) v size = Ok c /\ write_memory_block c a data = Ok c /\
  read_memory_block c a n = None /\ (0 <= size -> read_memory c (NInt a) size = Ok (bits size 0)).
Proof. exact C35_unmapped_proof. Qed.
Print Assumptions C35_unmapped.

Example C35_unmapped_ex : unmapped ex_cpu 8 /\ read_memory ex_cpu (NInt 8) 32 = Ok (bits 32 0).
Proof.
  split; [|reflexivity]. intros m [<-|[<-|[]]] [A B]; cbn in A, B; [apply B|apply A]; reflexivity.
Qed.

(** C35: every address is mapped or not; the answer is unique and depends on the
layout only. *)
Theorem C35_located : forall c a, ((exists i m, located c a i m) \/ unmapped c a) /\
  (forall i m i' m', located c a i m -> located c a i' m' -> i = i' /\ m = m') /\
  (forall i m, located c a i m -> ~ unmapped c a) /\
  (forall c', layout c' = layout c -> unmapped c a -> unmapped c' a).
Proof. exact C35_located_proof. Qed.
Print Assumptions C35_located.

Example C35_located_ex : exists m, located ex_cpu 259 1 m.
Proof.
  eexists. split; [reflexivity|]. split; [split; discriminate|]. intros [|[|j]] m' Hj E.
  - injection E as <-. intros [_ H]. apply H. reflexivity.
  - inversion Hj. inversion H0.
  - inversion Hj. inversion H0.
Qed.

(** C35: register writes never touch memory and memory writes never touch
registers. *)
Theorem C35_separate : forall c r v a d size,
  c_mem (write_register c r v) = c_mem c /\
  (forall c', write_memory c a d size = Ok c' -> c_regs c' = c_regs c) /\
  (forall c' data, write_memory_block c (num_val a) data = Ok c' -> c_regs c' = c_regs c).
Proof. exact C35_separate_proof. Qed.
Print Assumptions C35_separate.

Example C35_separate_ex : c_mem (write_register ex_cpu (RName "r3") (NInt 5)) = c_mem ex_cpu.
Proof. reflexivity. Qed.

(** C35: adding a region of zero bytes [start, start+length) keeps everything
else, in particular what was mapped before. *)
Theorem C35_add_memory : forall c start len, mem_ok c ->
  (len < 0 -> add_memory c start len = Err ValueError) /\
  (0 <= len -> exists c', add_memory c start len = Ok c' /\ mem_ok c' /\ c_regs c' = c_regs c /\
    layout c' = layout c ++ [(start, start + len - 1)] /\
    (forall i o, (i < List.length (c_mem c))%nat -> cell c' i o = cell c i o) /\
    (forall o, cell c' (List.length (c_mem c)) o = if (0 <=? o) && (o <? len) then Some 0 else None) /\
    (forall a i m, located c a i m -> located c' a i m)).
Proof. exact C35_add_memory_proof. Qed.
Print Assumptions C35_add_memory.

Example C35_add_memory_ex : exists c', add_memory ex_cpu 4096 2 = Ok c' /\ read_memory c' (NInt 4097) 8 = Ok (bits 8 0) /\
  layout c' = [(0, 7); (256, 259); (4096, 4097)].
Proof. eexists. split; [reflexivity|]. split; reflexivity. Qed.

(** C36: register names, in any letter case, and their numbers. *)
Theorem C36_names :
  (forall s t, lower s = lower t -> register_name_to_index (RName s) = register_name_to_index (RName t)) /\
  (forall n, 0 <= n <= 15 -> register_name_to_index (RName ("r" ++ fmt_d n)) = Some n) /\
  (forall n, 0 <= n <= 31 -> register_name_to_index (RName ("s" ++ fmt_d n)) = Some (64 + n)) /\
  map (fun s => register_name_to_index (RName s))
    ["sp"; "lr"; "pc"; "xpsr"; "msp"; "psp"; "control"; "faultmask"; "basepri"; "primask"; "fpscr"]%string
    = map Some [13; 14; 15; 16; 17; 18; -4; -3; -2; -1; 33] /\
  (forall s k, register_name_to_index (RName s) = Some k -> core k) /\
  (forall k, register_name_to_index (RIndex k) = Some k).
Proof. exact C36_names_proof. Qed.
Print Assumptions C36_names.

Example C36_names_ex : register_name_to_index (RName "R12") = Some 12 /\ register_name_to_index (RName "PRIMASK") = Some (-1) /\
  register_name_to_index (RName "r16") = None.
Proof. repeat split. Qed.

(** C36: a 32-bit value written to a register is read back under every alias, as
far as the register keeps it. *)
Theorem C36_read_after_write : forall c w r k v,
  register_name_to_index w = Some k -> register_name_to_index r = Some k -> 0 <= num_val v < 2 ^ 32 ->
  read_register (write_register c w v) r = Ok (bits 32 (kept k (num_val v))).
Proof. exact C36_read_after_write_proof. Qed.
Print Assumptions C36_read_after_write.

Example C36_read_after_write_ex :
  read_register (write_register ex_cpu (RName "R13") (NInt 4294967295)) (RName "sp") = Ok (bits 32 4294967292) /\
  read_register (write_register ex_cpu (RIndex 14) (NBits (bits 32 77))) (RName "lr") = Ok (bits 32 77).
Proof. split; reflexivity. Qed.

(** C36: a write changes only that register, and for sp (msp) also msp (sp). *)
Theorem C36_frame : forall c w k v j, register_name_to_index w = Some k ->
  reg_get (c_regs (write_register c w v)) (Some j) =
    (if written k j then Some (kept k (num_val v)) else reg_get (c_regs c) (Some j)) /\
  c_mem (write_register c w v) = c_mem c.
Proof. exact C36_frame_proof. Qed.
Print Assumptions C36_frame.

Example C36_frame_ex :
  reg (write_register ex_cpu (RName "sp") (NInt 103)) 17 = 100 /\ reg (write_register ex_cpu (RName "msp") (NInt 103)) 13 = 100 /\
  reg (write_register ex_cpu (RName "psp") (NInt 103)) 18 = 100 /\ reg (write_register ex_cpu (RName "psp") (NInt 103)) 13 = 0 /\
  reg (write_register ex_cpu (RName "basepri") (NInt 259)) (-2) = 3.
Proof. repeat split. Qed.

(** C36: reading register k gives its stored content; unknown names and numbers
raise KeyError on reading and disturb no register on writing. *)
Theorem C36_read : forall c r,
  (forall k v, register_name_to_index r = Some k -> reg_get (c_regs c) (Some k) = Some v ->
     read_register c r = Ok (bits (if 2 ^ 32 <? v then 64 else 32) v)) /\
  (forall k, register_name_to_index r = Some k -> reg_get (c_regs c) (Some k) = None -> read_register c r = Err KeyError) /\
  (register_name_to_index r = None -> forall v j,
     reg_get (c_regs (write_register c r v)) (Some j) = reg_get (c_regs c) (Some j)) /\
  (register_name_to_index r = None -> reg_get (c_regs c) None = None -> read_register c r = Err KeyError).
Proof. exact C36_read_proof. Qed.
Print Assumptions C36_read.

Example C36_read_ex : read_register ex_cpu (RName "xpsr") = Ok (bits 32 16777216) /\
  read_register ex_cpu (RName "nonsense") = Err KeyError /\ read_register ex_cpu (RIndex 19) = Err KeyError.
Proof. repeat split. Qed.

(** C36: cpu.r[k] is register number k; above 15 it raises KeyError. *)
Theorem C36_r_interface : forall c k v,
  (k <= 15 -> r_get c k = read_register c (RIndex k) /\ r_set c k v = Ok (write_register c (RIndex k) v)) /\
  (15 < k -> r_get c k = Err KeyError /\ r_set c k v = Err KeyError).
Proof. exact C36_r_interface_proof. Qed.
Print Assumptions C36_r_interface.

Example C36_r_interface_ex : exists c', r_set ex_cpu 7 (NInt 99) = Ok c' /\ r_get c' 7 = Ok (bits 32 99) /\
  read_register c' (RName "r7") = Ok (bits 32 99) /\ r_get c' 16 = Err KeyError.
Proof. eexists. split; [reflexivity|]. repeat split. Qed.

(** C36: the named accessors. *)
Theorem C36_accessors : forall c v,
  get_pc c = read_register c (RIndex 15) /\ set_pc c v = write_register c (RIndex 15) v /\
  get_lr c = read_register c (RIndex 14) /\ set_lr c v = write_register c (RIndex 14) v /\
  get_sp c = read_register c (RIndex 13) /\ set_sp c v = write_register c (RIndex 13) v /\
  get_msp c = read_register c (RIndex 17) /\ set_msp c v = write_register c (RIndex 17) v /\
  get_psp c = read_register c (RIndex 18) /\ set_psp c v = write_register c (RIndex 18) v /\
  get_xpsr c = read_register c (RIndex 16) /\ set_xpsr c v = write_register c (RIndex 16) v /\
  get_control c = read_register c (RIndex (-4)).
Proof. exact C36_accessors_proof. Qed.
Print Assumptions C36_accessors.

Example C36_accessors_ex : get_lr (set_lr ex_cpu (NInt 3)) = Ok (bits 32 3).
Proof. reflexivity. Qed.

(** C36: derived accessors: pc + 4, the exception number field, privilege. *)
Theorem C36_derived : forall c, regs_ok c ->
  pc_for_instr c = Ok (bits 32 (reg c 15 + 4)) /\
  get_ipsr c = Ok (bits 6 (reg c 16)) /\
  is_privileged c = Ok (negb (Z.odd (reg c (-4)))).
Proof. exact C36_derived_proof. Qed.
Print Assumptions C36_derived.

Example C36_derived_ex : pc_for_instr (set_pc ex_cpu (NInt 4294967294)) = Ok (bits 32 2).
Proof. reflexivity. Qed.

(** C36, histories: whatever calls are made on the interface with 32-bit values,
every register keeps a 32-bit value, and memory stays well formed. *)
Theorem C36_invariant : forall c l, regs_ok c -> mem_ok c -> Forall cop_ok l ->
  regs_ok (do_cops c l) /\ mem_ok (do_cops c l).
Proof. exact C36_invariant_proof. Qed.
Print Assumptions C36_invariant.

Example C36_invariant_ex : Forall cop_ok [CopReg (RName "r1") (NInt 4294967295); CopMem (NInt 1) (NInt 300) 16] /\
  let c := do_cops ex_cpu [CopReg (RName "r1") (NInt 4294967295); CopMem (NInt 1) (NInt 300) 16] in
  reg c 1 = 4294967295 /\ read_memory c (NInt 0) 32 = Ok (bits 32 67185665).
Proof. split; [repeat constructor; discriminate|]. split; reflexivity. Qed.

(** C36: a new machine has every register 0 except xPSR with the Thumb bit, and
no memory. *)
Theorem C36_fresh : regs_ok cpu_new /\ sp_ok cpu_new /\ mem_ok cpu_new /\ c_mem cpu_new = [] /\
  (forall k, core k -> reg cpu_new k = if k =? 16 then 2 ^ 24 else 0) /\
  (forall k, ~ core k -> reg_get (c_regs cpu_new) (Some k) = None) /\ reg_get (c_regs cpu_new) None = None.
Proof. exact C36_fresh_proof. Qed.
Print Assumptions C36_fresh.

Example C36_fresh_ex : read_register cpu_new (RName "xpsr") = Ok (bits 32 16777216) /\ read_register cpu_new (RName "s31") = Ok (bits 32 0).
Proof. split; reflexivity. Qed.

(** C37: from a state where sp = msp, both and psp word aligned, every sequence of
interface calls ends in such a state. *)
Theorem C37_sp_mirror : forall c l, sp_ok c -> sp_ok (do_cops c l).
Proof. exact C37_sp_mirror_proof. Qed.
Print Assumptions C37_sp_mirror.

Example C37_sp_mirror_ex : sp_ok cpu_new /\
  let c := do_cops cpu_new [CopReg (RName "sp") (NInt 4099); CopFlag FN (VInt 1); CopR 4 (NInt 7)] in
  reg c 13 = 4096 /\ reg c 17 = 4096 /\ reg c 18 = 0.
Proof. repeat split. Qed.

(** C37: exact effect of writing a stack pointer: word aligned, and mirrored
between sp and msp; psp stands alone. *)
Theorem C37_sp_write : forall c v,
  (reg (set_sp c v) 13 = num_val v - num_val v mod 4 /\ reg (set_sp c v) 17 = num_val v - num_val v mod 4 /\ reg (set_sp c v) 18 = reg c 18) /\
  (reg (set_msp c v) 13 = num_val v - num_val v mod 4 /\ reg (set_msp c v) 17 = num_val v - num_val v mod 4 /\ reg (set_msp c v) 18 = reg c 18) /\
  (reg (set_psp c v) 18 = num_val v - num_val v mod 4 /\ reg (set_psp c v) 13 = reg c 13 /\ reg (set_psp c v) 17 = reg c 17).
Proof. exact C37_sp_write_proof. Qed.
Print Assumptions C37_sp_write.

Example C37_sp_write_ex : reg (set_sp cpu_new (NInt 7)) 17 = 4.
Proof. reflexivity. Qed.

(** C37 refuted for the process stack: with CONTROL.SPSEL set, sp is still the
main stack pointer, so a write to psp is not visible through sp. *)
Theorem C37_process_stack_refuted : exists c, regs_ok c /\ Z.testbit (reg c (-4)) 1 = true /\
  get_sp (set_psp c (NInt 4096)) = Ok (bits 32 0) /\ get_psp (set_psp c (NInt 4096)) = Ok (bits 32 4096).
Proof. exact C37_process_stack_refuted_proof. Qed.
Print Assumptions C37_process_stack_refuted.

Example C37_process_stack_ex : spsel = 0.
Proof. reflexivity. Qed.

(** C38: reading a flag gives the xPSR bit. *)
Theorem C38_get : forall c f, regs_ok c -> apsr_get c f = Ok (bitv (Z.testbit (reg c 16) (flag_bit f))).
Proof. exact C38_get_proof. Qed.
Print Assumptions C38_get.

Example C38_get_ex : apsr_get (set_xpsr cpu_new (NInt 2147483648)) FN = Ok (bits 1 1) /\
  apsr_get (set_xpsr cpu_new (NInt 2147483648)) FZ = Ok (bits 1 0).
Proof. split; reflexivity. Qed.

(** C38: setting a flag changes exactly that bit of xPSR, nothing else; the value
counts modulo 2. *)
Theorem C38_set : forall c f v b, regs_ok c -> (v = VInt b \/ exists x, v = VBits x /\ wf x /\ bv x = b) ->
  exists c', apsr_set c f v = Ok c' /\ regs_ok c' /\ c_mem c' = c_mem c /\
    (forall k, k <> 16 -> reg c' k = reg c k) /\
    (forall i, 0 <= i -> Z.testbit (reg c' 16) i = if i =? flag_bit f then Z.odd b else Z.testbit (reg c 16) i) /\
    forall g, apsr_get c' g = Ok (bitv (if Z.eqb (flag_bit g) (flag_bit f) then Z.odd b else Z.testbit (reg c 16) (flag_bit g))).
Proof. exact C38_set_proof. Qed.
Print Assumptions C38_set.

Example C38_set_ex : exists c', apsr_set cpu_new FC (VInt 1) = Ok c' /\ reg c' 16 = 553648128 /\
  apsr_get c' FC = Ok (bits 1 1) /\ apsr_get c' FV = Ok (bits 1 0).
Proof. eexists. split; [reflexivity|]. repeat split. Qed.

(** C38: the flags are four different bits, where the architecture has them. *)
Theorem C38_positions : flag_bit FN = 31 /\ flag_bit FZ = 30 /\ flag_bit FC = 29 /\ flag_bit FV = 28 /\
  forall f g, flag_bit f = flag_bit g -> f = g.
Proof. exact C38_positions_proof. Qed.
Print Assumptions C38_positions.

Example C38_positions_ex : flag_bit FN <> flag_bit FZ.
Proof. discriminate. Qed.

(** C39 refuted: reading cpu.s[k] raises KeyError for every k >= 0, so a value
written to cpu.s[k] cannot be read back through it. *)
Theorem C39_read_refuted : exists c k v c', 0 <= k <= 31 /\ s_set c k (NInt v) = Ok c' /\ s_get c' k <> Ok (bits 32 v).
Proof. exact C39_read_refuted_proof. Qed.
Print Assumptions C39_read_refuted.

Example C39_read_refuted_ex : s_get cpu_new 0 = Err KeyError.
Proof. reflexivity. Qed.

(** C39: exact behaviour of the two directions.  Writes reach register number
64+k; reads look at 128+k and raise KeyError whenever k >= 0. *)
Theorem C39_exact : forall c k v,
  s_set c k v = (if 31 <? k then Err KeyError else Ok (write_register c (RIndex (64 + k)) v)) /\
  s_get c k = (if -33 <? k then Err KeyError else read_register c (RIndex (128 + k))).
Proof. exact C39_exact_proof. Qed.
Print Assumptions C39_exact.

Example C39_exact_ex : s_get cpu_new 31 = Err KeyError /\ s_get cpu_new (-40) = Ok (bits 32 0) /\ s_set cpu_new 32 (NInt 1) = Err KeyError.
Proof. repeat split. Qed.

(** C39, strongest true statement: what is written to cpu.s[k] is read back by
name and by number, and other registers keep their values. *)
Theorem C39_write : forall c k v, 0 <= k <= 31 -> 0 <= num_val v < 2 ^ 32 ->
  exists c', s_set c k v = Ok c' /\ read_register c' (RName ("s" ++ fmt_d k)) = Ok (bits 32 (num_val v)) /\
    read_register c' (RIndex (64 + k)) = Ok (bits 32 (num_val v)) /\
    s_get c' (k - 64) = Ok (bits 32 (num_val v)) /\
    c_mem c' = c_mem c /\ forall j, j <> 64 + k -> reg c' j = reg c j.
Proof. exact C39_write_proof. Qed.
Print Assumptions C39_write.

Example C39_write_ex : exists c', s_set cpu_new 7 (NInt 1234) = Ok c' /\ read_register c' (RName "S7") = Ok (bits 32 1234) /\
  s_get c' (-57) = Ok (bits 32 1234).
Proof. eexists. split; [reflexivity|]. split; reflexivity. Qed.
