(** * Model of model.py over any delegate

    [CpuModel] keeps no registers and no memory: it forwards to its delegate.  Here the
    delegate is any object with some state [S]; [CpuModel.v] has the special case of the mock
    delegate.  [None] stands for Python's None where there is no delegate.  [add_memory] is a
    method of the mock delegate only ([CpuModel.v]). *)
From Verif Require Export CpuModel InsnModel.

Section Delegate.
  Context {S : Type}.

  (** model.py:293-310, the methods of a delegate; each may change the delegate *)
  Record delegate := mkdelegate {
    del_read_register : option Z -> S -> S * res pyval;
    del_write_register : option Z -> Z -> S -> S * res unit;
    del_read_memory : Z -> Z -> S -> S * res pyval;
    del_write_memory : Z -> Z -> Z -> S -> S * res unit }.

  (** model.py:123-129: [_delegate] *)
  Variable d : option delegate.

  (** model.py:225-228 *)
  Definition g_read_register (reg : regref) (s : S) : S * res (option bs) :=
    let reg := register_name_to_index reg in
    match d with
    | Some d =>
      let '(s', r) := del_read_register d reg s in
      (s', let* v := r in let* b := bs_init v None in Ok (Some b))
    | None => (s, Ok None)
    end.

  (** model.py:230-235 *)
  Definition g_write_register (reg : regref) (value : num) (s : S) : S * res unit :=
    let reg := register_name_to_index reg in
    match d with
    | Some d => del_write_register d reg (num_val value) s
    | None => (s, Ok tt)
    end.

  (** model.py:237-241 *)
  Definition g_read_memory (addr : num) (size : Z) (s : S) : S * res (option bs) :=
    match d with
    | Some d =>
      let '(s', r) := del_read_memory d (num_val addr) size s in
      (s', let* v := r in let* b := bs_init v (Some size) in Ok (Some b))
    | None => (s, Ok None)
    end.

  (** model.py:243-249 *)
  Definition g_write_memory (addr value : num) (size : Z) (s : S) : S * res unit :=
    match d with
    | Some d => del_write_memory d (num_val addr) (num_val value) size s
    | None => (s, Ok tt)
    end.

  (** model.py:26-42, 217-223 *)
  Definition g_ri_get (first last key : Z) (s : S) : S * res (option bs) :=
    let index := first + key in
    if last <? first + index then (s, Err KeyError) else g_read_register (RIndex (first + index)) s.
  Definition g_ri_set (first last key : Z) (value : num) (s : S) : S * res unit :=
    let index := first + key in
    if last <? index then (s, Err KeyError) else g_write_register (RIndex index) value s.

  (** Using the value of [read_register] in an expression: TypeError for None. *)
  Definition g_use {A} (x : S * res (option bs)) (f : bs -> res A) : S * res A :=
    let '(s, r) := x in
    (s, let* o := r in match o with Some b => f b | None => Err TypeError end).

  (** model.py:156-159 *)
  Definition g_pc_for_instr (s : S) : S * res bs := g_use (g_read_register (RName "pc") s) (fun b => bs_add b (VInt 4)).
  (** model.py:197-199 *)
  Definition g_is_privileged (s : S) : S * res bool :=
    g_use (g_read_register (RName "control") s) (fun ctl =>
      let* b := bs_getitem ctl (KInt 0) in let* '(_, r) := bs_eq b (VStr "0") in Ok r).
  (** model.py:213-215 *)
  Definition g_ipsr (s : S) : S * res bs :=
    g_use (g_read_register (RName "xpsr") s) (fun x => bs_getitem x (KSlice (sl 0 6))).

  (** model.py:53-91, the flags.  In the setter [bitstring(value, 1)] is evaluated before the
      assignment to an item of None fails. *)
  Definition g_apsr_get (f : flag) (s : S) : S * res bs :=
    g_use (g_read_register (RName "xpsr") s) (fun x => bs_getitem x (KInt (flag_bit f))).
  Definition g_apsr_set (f : flag) (value : pyval) (s : S) : S * res unit :=
    let '(s, r) := g_read_register (RName "xpsr") s in
    match
      (let* v := r in
       let* b := bs_init value (Some 1) in
       match v with Some v => bs_setitem v (KInt (flag_bit f)) (VBits b) | None => Err TypeError end)
    with
    | Ok v' => g_write_register (RName "xpsr") (NBits v') s
    | Err e => (s, Err e)
    end.

  (** model.py:269-275, the block accesses: address, length, data and answer are passed on as they
      are.  The methods are not among those of a delegate (model.py:293-310): [None] is no
      delegate, [Some None] one that lacks the method. *)
  Definition g_write_memory_block {A D V} (m : option (option (A -> D -> S -> S * res V))) (addr : A) (data : D) (s : S) : S * res unit :=
    match m with
    | Some (Some f) => let '(s', r) := f addr data s in (s', let* _ := r in Ok tt)
    | Some None => (s, Err AttributeError)
    | None => (s, Ok tt)
    end.
  Definition g_read_memory_block {A L V} (m : option (option (A -> L -> S -> S * res V))) (addr : A) (length : L) (s : S) : S * res (option V) :=
    match m with
    | Some (Some f) => let '(s', r) := f addr length s in (s', let* v := r in Ok (Some v))
    | Some None => (s, Err AttributeError)
    | None => (s, Ok None)
    end.
End Delegate.
Arguments delegate : clear implicits.

(** mock_cpu.py:25-98 as a delegate *)
Definition mock_delegate : delegate cpu := mkdelegate
  (fun reg c => (c, let* v := mock_read_register c reg in Ok (VInt v)))
  (fun reg value c => (mock_write_register c reg value, Ok tt))
  (fun addr size c => (c, mock_read_memory c addr size))
  (fun addr value size c => match mock_write_memory c addr value size with Ok c' => (c', Ok tt) | Err e => (c, Err e) end).

(** mock_cpu.py:88-96, the block accesses of the mock *)
Definition mock_block_write : Z -> list Z -> cpu -> cpu * res unit :=
  fun addr data c => match write_memory_block c addr data with Ok c' => (c', Ok tt) | Err e => (c, Err e) end.
Definition mock_block_read : Z -> Z -> cpu -> cpu * res (option (list Z)) :=
  fun addr length c => (c, Ok (read_memory_block c addr length)).

(** model.py:295-310: the base class, whose methods do nothing and return None *)
Definition base_delegate (S : Type) : delegate S := mkdelegate
  (fun _ s => (s, Ok VNone)) (fun _ _ s => (s, Ok tt)) (fun _ _ s => (s, Ok VNone)) (fun _ _ _ s => (s, Ok tt)).

(** ** Texts of the CPU model *)

(** model.py:277-285: the lines printed, if no register is missing.  ["%08x"] of a bitstring uses its value. *)
Definition dump_line (l : list (string * res bs)) : res string :=
  let* parts := map_res (fun '(name, r) => let* b := r in Ok (name ++ fmt_0x 8 (bv b))%string) l in
  Ok (join "" parts).
Definition cpu_dump (c : cpu) : res (list string) :=
  map_res dump_line
   [[("r0=", r_get c 0); ("    r4=", r_get c 4); ("    r8 =", r_get c 8); ("   r12=", r_get c 12)];
    [("r1=", r_get c 1); ("    r5=", r_get c 5); ("    r9 =", r_get c 9); ("   sp =", get_sp c)];
    [("r2=", r_get c 2); ("    r6=", r_get c 6); ("    r10=", r_get c 10); ("   lr =", get_lr c)];
    [("r3=", r_get c 3); ("    r7=", r_get c 7); ("    r11=", r_get c 11); ("   pc =", get_pc c)]]%string.

(** model.py:287-290; [ident] is [hex(id(self))] *)
Definition cpu_repr (name ident : string) (c : cpu) : res string :=
  let* pc := get_pc c in
  let* xpsr := get_xpsr c in
  let* rs := map_res (fun i => let* b := r_get c i in Ok (fmt_x (bs_unsigned b))) (py_range 15) in
  Ok ("<" ++ name ++ "@" ++ ident ++ " pc=" ++ fmt_x (bv pc) ++ " xpsr=" ++ fmt_x (bv xpsr) ++ " rN=[" ++ join " " rs ++ "]>")%string.

(** decoder.py:62-64; [ident] is the text of [id(self)] with ["%x"] *)
Definition insn_repr (ident : string) (i : insn) : string :=
  ("<Instruction@0x" ++ ident ++ " " ++ i_mnemonic i ++ " " ++ (if i_is32 i then " " ++ fmt_0x 8 (i_word i) else " " ++ fmt_0x 4 (i_word i)) ++ ">")%string.
