(** * Model of /repo/cmdis/registers.py, model.py and mock_cpu.py

    The modelled machine is a [CpuModel] whose delegate is a
    [MockCpuModelDelegate] (the combination used by the tests and by the
    simulator).  A [CpuModel] with another delegate or none, [CpuModel.dump] and
    [CpuModel.__repr__] are in DelegateModel.v.  Not modelled: the [mode] attribute
    (never read), logging. *)
From Verif Require Export UtilModel HelpersModel.

(** ** Python dictionaries: association lists in insertion order *)
Section Dict.
  Context {K V : Type} (eqb : K -> K -> bool).
  Fixpoint dict_get (k : K) (d : list (K * V)) : option V :=
    match d with
    | [] => None
    | (k', v) :: d' => if eqb k k' then Some v else dict_get k d'
    end.
  Fixpoint dict_set (k : K) (v : V) (d : list (K * V)) : list (K * V) :=
    match d with
    | [] => [(k, v)]
    | (k', v') :: d' => if eqb k k' then (k', v) :: d' else (k', v') :: dict_set k v d'
    end.
End Dict.

(** registers.py:21-81 *)
Definition CORE_REGISTER : list (string * Z) :=
  [("r0", 0); ("r1", 1); ("r2", 2); ("r3", 3); ("r4", 4); ("r5", 5); ("r6", 6); ("r7", 7);
   ("r8", 8); ("r9", 9); ("r10", 10); ("r11", 11); ("r12", 12);
   ("sp", 13); ("r13", 13); ("lr", 14); ("r14", 14); ("pc", 15); ("r15", 15);
   ("xpsr", 16); ("msp", 17); ("psp", 18);
   ("control", -4); ("faultmask", -3); ("basepri", -2); ("primask", -1); ("fpscr", 33);
   ("s0", 64); ("s1", 65); ("s2", 66); ("s3", 67); ("s4", 68); ("s5", 69); ("s6", 70); ("s7", 71);
   ("s8", 72); ("s9", 73); ("s10", 74); ("s11", 75); ("s12", 76); ("s13", 77); ("s14", 78); ("s15", 79);
   ("s16", 80); ("s17", 81); ("s18", 82); ("s19", 83); ("s20", 84); ("s21", 85); ("s22", 86); ("s23", 87);
   ("s24", 88); ("s25", 89); ("s26", 90); ("s27", 91); ("s28", 92); ("s29", 93); ("s30", 94); ("s31", 95)]%string.

(** registers.py:84-90 *)
Definition CORE_REGISTER_NAMES : list (Z * string) :=
  dict_set Z.eqb 15 "pc"%string (dict_set Z.eqb 14 "lr"%string (dict_set Z.eqb 13 "sp"%string
    (fold_left (fun d kv => dict_set Z.eqb (snd kv) (fst kv) d) CORE_REGISTER []))).

(** [str.lower()] on ASCII text *)
Definition lower_char (c : ascii) : ascii :=
  let n := nat_of_ascii c in
  if (Nat.leb 65 n && Nat.leb n 90)%bool then ascii_of_nat (n + 32) else c.
Fixpoint lower (s : string) : string :=
  match s with EmptyString => EmptyString | String c s' => String (lower_char c) (lower s') end.

(** A register argument: a name or a number. *)
Inductive regref := RName (s : string) | RIndex (i : Z).

(** registers.py:92-99; [None] is Python's None, returned for an unknown name *)
Definition register_name_to_index (reg : regref) : option Z :=
  match reg with
  | RName s => dict_get String.eqb (lower s) CORE_REGISTER
  | RIndex i => Some i
  end.

(** ** mock_cpu.py *)

Definition key_eqb (a b : option Z) : bool :=
  match a, b with Some x, Some y => x =? y | None, None => true | _, _ => false end.
Definition regfile := list (option Z * Z).
Definition reg_get (d : regfile) (k : option Z) : option Z := dict_get key_eqb k d.
Definition reg_set (d : regfile) (k : option Z) (v : Z) : regfile := dict_set key_eqb k v d.

(** mock_cpu.py:23 *)
Record membuf := mkmem { m_start : Z; m_end : Z; m_data : list Z }.

(** mock_cpu.py:26-31, the two attributes of the delegate *)
Record cpu := mkcpu { c_regs : regfile; c_mem : list membuf }.

Definition cpu_new : cpu :=
  mkcpu (reg_set (fold_left (fun d kv => reg_set d (Some (snd kv)) 0) CORE_REGISTER []) (Some 16) 16777216) [].

(** mock_cpu.py:33-35; [bytearray(length)] raises ValueError on a negative length *)
Definition add_memory (c : cpu) (start length : Z) : res cpu :=
  if length <? 0 then Err ValueError else
  Ok (mkcpu (c_regs c)
        (c_mem c ++ [mkmem start (start + length - 1) (repeat 0 (Z.to_nat length))])).

(** mock_cpu.py:37-38 *)
Definition mock_read_register (c : cpu) (reg : option Z) : res Z :=
  match reg_get (c_regs c) reg with Some v => Ok v | None => Err KeyError end.

(** mock_cpu.py:51: the index of 'control', not its content *)
Definition spsel : Z := Z.shiftr (Z.land (-4) 2) 1.

(** mock_cpu.py:42-47 *)
Definition mock_mask (reg : option Z) (value : Z) : Z :=
  if (key_eqb reg (Some (-3)) || key_eqb reg (Some (-1)))%bool then Z.land value 1
  else if key_eqb reg (Some (-2)) then Z.land value 255
  else if (key_eqb reg (Some 13) || key_eqb reg (Some 17) || key_eqb reg (Some 18))%bool
  then Z.land value (Z.lnot 3)
  else value.

(** mock_cpu.py:40-59 *)
Definition mock_write_register (c : cpu) (reg : option Z) (value : Z) : cpu :=
  let value := mock_mask reg value in
  let regs := reg_set (c_regs c) reg value in
  let regs :=
    if key_eqb reg (Some 13) then
      (if negb (spsel =? 0) then reg_set regs (Some 18) value else reg_set regs (Some 17) value)
    else if ((key_eqb reg (Some 17) && (spsel =? 0)) || (key_eqb reg (Some 18) && (spsel =? 1)))%bool
    then reg_set regs (Some 13) value
    else regs in
  mkcpu regs (c_mem c).

(** mock_cpu.py:61-65; the position of the region in the list is returned
    together with it so that writes can update it.  A [MemBuffer] is a non-empty
    tuple, hence true in [if mem:]. *)
Fixpoint find_mem_from (i : nat) (l : list membuf) (addr : Z) : option (nat * membuf * Z) :=
  match l with
  | [] => None
  | m :: l' => if ((m_start m <=? addr) && (addr <=? m_end m))%bool
               then Some (i, m, addr - m_start m) else find_mem_from (S i) l' addr
  end.
Definition find_mem (c : cpu) (addr : Z) : option (nat * membuf * Z) := find_mem_from 0 (c_mem c) addr.

(** [l[a:b]] on a bytearray *)
Definition list_slice {A} (l : list A) (a b : Z) : list A :=
  match slice_indices (sl a b) (Z.of_nat (List.length l)) with
  | Ok (start, stop, _) => firstn (Z.to_nat (stop - start)) (skipn (Z.to_nat start) l)
  | Err _ => []
  end.
(** [l[a:b] = new] on a bytearray; ValueError if an element is not a byte *)
Definition byte_ok (x : Z) : bool := ((0 <=? x) && (x <? 256))%bool.
Definition list_setslice (l : list Z) (a b : Z) (new : list Z) : res (list Z) :=
  let* '(start, stop, _) := slice_indices (sl a b) (Z.of_nat (List.length l)) in
  if forallb byte_ok new then
    Ok (firstn (Z.to_nat start) l ++ new ++ skipn (Z.to_nat (Z.max start stop)) l)
  else Err ValueError.

(** mock_cpu.py:67-76; the size-8 branch returns a bytearray.  It holds one byte, and
    [bitstring(bytearray, width)] of one byte is the same in both interpreters
    (C12_one_byte), so the model does not carry the interpreter here. *)
Definition mock_read_memory (c : cpu) (addr size : Z) : res pyval :=
  match find_mem c addr with
  | None => Ok (VInt 0)
  | Some (_, m, offset) =>
    if size =? 8 then Ok (VBytearray Py3 (list_slice (m_data m) offset (offset + 1)))
    else if size =? 16 then
      let* v := bytes_to_le16 (list_slice (m_data m) offset (offset + 2)) 0 in Ok (VInt v)
    else if size =? 32 then
      let* v := bytes_to_le32 (list_slice (m_data m) offset (offset + 4)) 0 in Ok (VInt v)
    else Ok (VInt 0)
  end.

Fixpoint list_update {A} (i : nat) (f : A -> A) (l : list A) : list A :=
  match l, i with
  | [], _ => []
  | x :: l', O => f x :: l'
  | x :: l', S i' => x :: list_update i' f l'
  end.
(** Replace the bytearray of region [i] (it is modified in place). *)
Definition set_data (c : cpu) (i : nat) (data : list Z) : cpu :=
  mkcpu (c_regs c) (list_update i (fun m => mkmem (m_start m) (m_end m) data) (c_mem c)).

(** mock_cpu.py:78-86; an exception leaves the memory unchanged *)
Definition mock_write_memory (c : cpu) (addr value size : Z) : res cpu :=
  match find_mem c addr with
  | None => Ok c
  | Some (i, m, offset) =>
    if size =? 8 then
      let* d := list_setslice (m_data m) offset (offset + 1) [value] in Ok (set_data c i d)
    else if size =? 16 then
      let* d := list_setslice (m_data m) offset (offset + 2) (le16_to_bytes value) in Ok (set_data c i d)
    else if size =? 32 then
      let* d := list_setslice (m_data m) offset (offset + 4) (le32_to_bytes value) in Ok (set_data c i d)
    else Ok c
  end.

(** mock_cpu.py:88-91; model.py:269-271 only forwards *)
Definition write_memory_block (c : cpu) (addr : Z) (data : list Z) : res cpu :=
  match find_mem c addr with
  | None => Ok c
  | Some (i, m, offset) =>
    let* d := list_setslice (m_data m) offset (offset + Z.of_nat (List.length data)) data in
    Ok (set_data c i d)
  end.

(** mock_cpu.py:93-96; model.py:273-275 only forwards.  [None] is Python's None. *)
Definition read_memory_block (c : cpu) (addr length : Z) : option (list Z) :=
  match find_mem c addr with
  | None => None
  | Some (_, m, offset) => Some (list_slice (m_data m) offset (offset + length))
  end.

(** ** model.py *)

(** An address or a value passed to the CPU model: a bitstring or an int
    (model.py:232-233, 238-239, 244-247). *)
Inductive num := NBits (b : bs) | NInt (z : Z).
Definition num_val (n : num) : Z := match n with NBits b => bs_unsigned b | NInt z => z end.

(** model.py:225-228 *)
Definition read_register (c : cpu) (reg : regref) : res bs :=
  let* v := mock_read_register c (register_name_to_index reg) in
  bs_init (VInt v) None.

(** model.py:230-235 *)
Definition write_register (c : cpu) (reg : regref) (value : num) : cpu :=
  mock_write_register c (register_name_to_index reg) (num_val value).

(** model.py:237-241 *)
Definition read_memory (c : cpu) (addr : num) (size : Z) : res bs :=
  let* v := mock_read_memory c (num_val addr) size in
  bs_init v (Some size).

(** model.py:243-249 *)
Definition write_memory (c : cpu) (addr value : num) (size : Z) : res cpu :=
  mock_write_memory c (num_val addr) (num_val value) size.

(** model.py:251-267 *)
Definition read32 (c : cpu) (addr : num) := read_memory c addr 32.
Definition read16 (c : cpu) (addr : num) := read_memory c addr 16.
Definition read8 (c : cpu) (addr : num) := read_memory c addr 8.
Definition write32 (c : cpu) (addr value : num) := write_memory c addr value 32.
Definition write16 (c : cpu) (addr value : num) := write_memory c addr value 16.
Definition write8 (c : cpu) (addr value : num) := write_memory c addr value 8.

(** model.py:26-42 *)
Definition ri_get (first last : Z) (c : cpu) (key : Z) : res bs :=
  let index := first + key in
  if last <? first + index then Err KeyError
  else read_register c (RIndex (first + index)).
Definition ri_set (first last : Z) (c : cpu) (key : Z) (value : num) : res cpu :=
  let index := first + key in
  if last <? index then Err KeyError
  else Ok (write_register c (RIndex index) value).

(** model.py:110-111, 217-223 *)
Definition r_get := ri_get 0 15.
Definition r_set := ri_set 0 15.
Definition s_get := ri_get 64 95.
Definition s_set := ri_set 64 95.

(** model.py:148-203: the named accessors *)
Definition get_pc (c : cpu) := read_register c (RName "pc").
Definition set_pc (c : cpu) (v : num) := write_register c (RName "pc") v.
Definition get_lr (c : cpu) := read_register c (RName "lr").
Definition set_lr (c : cpu) (v : num) := write_register c (RName "lr") v.
Definition get_sp (c : cpu) := read_register c (RName "sp").
Definition set_sp (c : cpu) (v : num) := write_register c (RName "sp") v.
Definition get_msp (c : cpu) := read_register c (RName "msp").
Definition set_msp (c : cpu) (v : num) := write_register c (RName "msp") v.
Definition get_psp (c : cpu) := read_register c (RName "psp").
Definition set_psp (c : cpu) (v : num) := write_register c (RName "psp") v.
Definition get_control (c : cpu) := read_register c (RName "control").
Definition get_xpsr (c : cpu) := read_register c (RName "xpsr").
Definition set_xpsr (c : cpu) (v : num) := write_register c (RName "xpsr") v.

(** model.py:156-159 *)
Definition pc_for_instr (c : cpu) : res bs :=
  let* pc := read_register c (RName "pc") in bs_add pc (VInt 4).

(** model.py:197-199; nPRIV = 0 *)
Definition is_privileged (c : cpu) : res bool :=
  let* ctl := get_control c in
  let* b := bs_getitem ctl (KInt 0) in
  let* '(_, r) := bs_eq b (VStr "0") in Ok r.

(** model.py:213-215 *)
Definition get_ipsr (c : cpu) : res bs :=
  let* x := get_xpsr c in bs_getitem x (KSlice (sl 0 6)).

(** model.py:115-121, 135-137 *)
Definition has_dsp_ext : bool := false.
Definition has_fp_ext : bool := false.
Definition in_it_block : bool := false.

(** model.py:44-91, the flag accessors *)
Inductive flag := FN | FZ | FC | FV.
Definition flag_bit (f : flag) : Z := match f with FN => 31 | FZ => 30 | FC => 29 | FV => 28 end.
Definition apsr_get (c : cpu) (f : flag) : res bs :=
  let* x := get_xpsr c in bs_getitem x (KInt (flag_bit f)).
Definition apsr_set (c : cpu) (f : flag) (value : pyval) : res cpu :=
  let* v := get_xpsr c in
  let* b := bs_init value (Some 1) in
  let* v' := bs_setitem v (KInt (flag_bit f)) (VBits b) in
  Ok (set_xpsr c (NBits v')).
