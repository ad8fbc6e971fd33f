(** * Vocabulary for the statements about execution

    The machine is seen as a function from register numbers to contents plus the
    memory.  Everything is plain arithmetic on [Z]. *)
From Verif Require Import BitstringModel SpecBits SpecArm CpuModel SpecCpu InsnModel SpecIsa ExecModel.
Local Open Scope bool_scope.
Local Open Scope Z_scope.

(** The object [i] is of class [k] and has exactly the attributes listed. *)
Definition is_insn (i : insn) (k : klass) (l : list item) : Prop :=
  i_klass i = k /\ i_attrs i = attributes l.

(** The same object with its immediate, or its flag setting, replaced. *)
Definition with_imm (i : insn) (v : Z) : insn := set_attrs (with_imm32 (bits 32 v)) i.
Definition with_flags (i : insn) (v : setflags) : insn := set_attrs (with_setflags v) i.

Definition gpr (k : Z) : Prop := 0 <= k <= 15.
Definition word (v : Z) : Prop := 0 <= v < 2 ^ 32.
Definition wrap (v : Z) : Z := v mod 2 ^ 32.

(** Register contents after storing [v] into register [k]. *)
Definition set (f : Z -> Z) (k v : Z) : Z -> Z := fun j => if written k j then kept k v else f j.
(** The pc moved on by [n]. *)
Definition advance (f : Z -> Z) (n : Z) : Z -> Z := set f 15 (wrap (f 15 + n)).

(** The flags in the program status register. *)
Definition flag_N (x : Z) : bool := Z.testbit x 31.
Definition flag_Z (x : Z) : bool := Z.testbit x 30.
Definition flag_C (x : Z) : bool := Z.testbit x 29.
Definition flag_V (x : Z) : bool := Z.testbit x 28.
(** The four flags replaced; [None] keeps the flag. *)
Definition opt_bit (x k : Z) (b : option bool) : Z := match b with Some b => put_bit x k b | None => x end.
Definition put_flags (x : Z) (n z c v : option bool) : Z := opt_bit (opt_bit (opt_bit (opt_bit x 31 n) 30 z) 29 c) 28 v.
Definition set_nzcv (f : Z -> Z) (n z c v : option bool) : Z -> Z := set f 16 (put_flags (f 16) n z c v).
(** ... for the result [r], if the instruction sets the flags.  There is no IT block. *)
Definition sets (sf : setflags) : bool := match sf with Never => false | _ => true end.
Definition negative (r : Z) : bool := 2 ^ 31 <=? r.
Definition set_result (sf : setflags) (f : Z -> Z) (r : Z) (c v : option bool) : Z -> Z :=
  if sets sf then set_nzcv f (Some (negative r)) (Some (r =? 0)) c v else f.

(** Execution of [i] on [c] succeeds, leaves the registers as [f] says, the
    memory unchanged, and the object as [i']. *)
Definition runs (py : pyver) (c : cpu) (i : insn) (f : Z -> Z) (i' : insn) : Prop :=
  exists c', execute py c i = (mkst c' i', Ok tt) /\
    c_mem c' = c_mem c /\ forall k, core k -> reg c' k = f k.

(** ** Addition *)
(** The second operand and the carry in. *)
Definition operand2 (sub : bool) (b : Z) : Z := if sub then 2 ^ 32 - 1 - b else b.
Definition b2z (b : bool) : Z := if b then 1 else 0.
Definition carry_in (sub use : bool) (x : Z) : Z := if use then b2z (flag_C x) else b2z sub.
Definition carry_of (a b c : Z) : bool := 2 ^ 32 <=? a + b + c.
Definition overflow_of (a b c : Z) : bool :=
  let s := twos 32 a + twos 32 b + c in negb ((- 2 ^ 31 <=? s) && (s <? 2 ^ 31)).
(** What the code makes of a number: complemented when it is negative. *)
Definition flip (v : Z) : Z := if v <? 2 ^ 31 then v else 2 ^ 32 - 1 - v.

(** ** Data *)
Definition sext (w v : Z) : Z := wrap (twos w v).
Definition bit_result (op : bitop) (a b : Z) : Z :=
  match op with OpAnd => Z.land a b | OpXor => Z.lxor a b | OpOr => Z.lor a b end.
(** Byte [k] of a word. *)
Definition byte (v k : Z) : Z := (v / 256 ^ k) mod 256.
Definition byte_reversed (w : Z) (sgn : bool) (v : Z) : Z :=
  if w =? 4 then byte v 3 + 256 * byte v 2 + 65536 * byte v 1 + 16777216 * byte v 0
  else if sgn then sext 16 (byte v 1 + 256 * byte v 0)
  else byte v 1 + 256 * byte v 0 + 65536 * byte v 3 + 16777216 * byte v 2.
Definition extended (w : Z) (sgn : bool) (v : Z) : Z := if sgn then sext w v else v mod 2 ^ w.
(** Base of pc-relative addresses. *)
Definition pc_base (pc : Z) : Z := let p := wrap (pc + 4) in p - p mod 4.
Definition offset_from (add : bool) (a b : Z) : Z := wrap (if add then a + b else a - b).

(** ** Conditions *)
Definition condition_holds (k : Z) (n z c v : bool) : bool :=
  match k with
  | 0 => z | 1 => negb z | 2 => c | 3 => negb c | 4 => n | 5 => negb n | 6 => v | 7 => negb v
  | 8 => c && negb z | 9 => negb c || z
  | 10 => Bool.eqb n v | 11 => xorb n v
  | 12 => negb z && Bool.eqb n v | 13 => z || xorb n v
  | _ => true
  end.
Definition holds_in (k x : Z) : bool := condition_holds k (flag_N x) (flag_Z x) (flag_C x) (flag_V x).

(** ** Memory *)
(** Reading [size] bits at [a] gives [v]; nothing is there: 0. *)
Inductive reads (c : cpu) (a size v : Z) : Prop :=
| reads_mapped : forall i m l, located c a i m ->
    take_cells c i (a - m_start m) (Z.to_nat (size / 8)) = Some l -> v = le_number l -> reads c a size v
| reads_unmapped : unmapped c a -> v = 0 -> reads c a size v.
(** The bytes run past the stored contents of the region. *)
Definition cut_off (c : cpu) (a size : Z) : Prop :=
  exists i m, located c a i m /\ take_cells c i (a - m_start m) (Z.to_nat (size / 8)) = None.
(** The memory of [c'] is that of [c] after the writes [ws], in order. *)
Definition wrote (c c' : cpu) (ws : list wr) : Prop :=
  layout c' = layout c /\ forall i o b, cell c' i o = b <-> last_byte c i o ws b.
Definition size_ok (size : Z) : Prop := size = 8 \/ size = 16 \/ size = 32.
(** Execution succeeds, changes the registers to [f] and performs the writes [ws]. *)
Definition stores (py : pyver) (c : cpu) (i : insn) (f : Z -> Z) (ws : list wr) : Prop :=
  exists c', execute py c i = (mkst c' i, Ok tt) /\
    wrote c c' ws /\ forall k, core k -> reg c' k = f k.

(** Address of a load or store: offset address and address used. *)
Definition addresses (add index : bool) (base off : Z) : Z * Z :=
  let oa := offset_from add base off in (oa, if index then oa else base).

(** Outcome of a load with the offset [off]: the base is written back if [wb], then the
    target register gets the extended value; a read running past the contents fails
    and changes nothing. *)
Definition loads (py : pyver) (c : cpu) (i : insn) (t n : Z) (idx add wb : bool) (ms : Z) (sgn : bool) (off : Z) : Prop :=
  let (oa, ad) := addresses add idx (reg c n) off in
  (forall v, reads c ad ms v ->
     runs py c i (advance (set (if wb then set (reg c) n oa else reg c) t (extended ms sgn v)) (i_size i)) i) /\
  (cut_off c ad ms -> execute py c i = (mkst c i, Err IndexError)) /\
  ((exists v, reads c ad ms v) \/ cut_off c ad ms).

(** ** Branches *)
Definition next_pc (f : Z -> Z) (delta : Z) : Z := wrap (f 15 + 4 + delta).
Definition linked (link : bool) (f : Z -> Z) (delta : Z) : Z -> Z :=
  if link then set f 14 (Z.lor (next_pc f delta) 1) else f.

(** ** Special registers *)
Definition privileged (f : Z -> Z) : bool := Z.even (f (-4)).
(** What is read from special register [y]; [None]: the code cannot read it. *)
Definition special_read (f : Z -> Z) (y : Z) : option Z :=
  match y with
  | 5 | 7 => Some (f 16 mod 64)
  | 6 => Some 0
  | 8 => Some (if privileged f then f 17 else 0)
  | 9 => Some (if privileged f then f 18 else 0)
  | 16 => Some (if privileged f then f (-1) mod 2 else 0)
  | 17 | 18 => Some (if privileged f then f (-2) mod 256 else 0)
  | 19 => Some (if privileged f then f (-3) mod 2 else 0)
  | 20 => Some (f (-4) mod 4)
  | _ => None
  end.

(** ** Register lists *)
(** A register of the list [regs] is transferred: on Python 3 every one is, since the
    test is the truth value of a bitstring of length 1. *)
Definition is_listed (py : pyver) (regs k : Z) : bool :=
  match py with Py2 => Z.testbit regs k | Py3 => true end.
(** The registers below the pc that are transferred, in order. *)
Definition transferred (py : pyver) (regs : Z) : list Z := filter (is_listed py regs) (py_range 15).
(** The number of registers in the list. *)
Definition reg_count (regs : Z) : Z := Z.of_nat (List.length (filter (Z.testbit regs) (py_range 16))).
(** The registers [l] of [f] stored one after the other from address [a]. *)
Fixpoint word_writes (f : Z -> Z) (a : Z) (l : list Z) : list wr :=
  match l with
  | [] => []
  | k :: l' => mkwr (wrap a) (f k) 32 :: word_writes f (a + 4) l'
  end.
(** The words from address [a] on are [vs]. *)
Fixpoint reads_words (c : cpu) (a : Z) (vs : list Z) : Prop :=
  match vs with
  | [] => True
  | v :: vs' => reads c (wrap a) 32 v /\ reads_words c (a + 4) vs'
  end.
(** Register contents after loading [vs] into the registers [l]. *)
Fixpoint loaded (f : Z -> Z) (l vs : list Z) : Z -> Z :=
  match l, vs with
  | k :: l', v :: vs' => loaded (set f k v) l' vs'
  | _, _ => f
  end.
Definition words {A} (l : list A) : Z := 4 * Z.of_nat (List.length l).
(** ... and then the pc, if it is in the list, from the following word. *)
Definition loaded_pc (py : pyver) (c : cpu) (regs a : Z) (f : Z -> Z) (size : Z) (f' : Z -> Z) : Prop :=
  if is_listed py regs 15 then exists v, reads c (wrap a) 32 v /\ f' = set f 15 v
  else f' = advance f size.

Definition half (v : Z) : Prop := 0 <= v < 2 ^ 16.
(** Execution raises [e], having changed the registers to [f] and nothing else. *)
Definition fails (py : pyver) (c : cpu) (i : insn) (f : Z -> Z) (e : exc) : Prop :=
  exists c', execute py c i = (mkst c' i, Err e) /\
    c_mem c' = c_mem c /\ forall k, core k -> reg c' k = f k.
(** Outcome of loading the registers of [regs] from address [a] on, starting with the
    register contents [f] and ending with [g]: all words can be read, or the first that
    cannot makes the instruction fail half way. *)
Definition loads_list (py : pyver) (c : cpu) (i : insn) (regs a : Z) (f : Z -> Z) (g : (Z -> Z) -> Z -> Z) : Prop :=
  let l := transferred py regs in
  forall vs, reads_words c a vs ->
  (List.length vs = List.length l ->
     (forall f', loaded_pc py c regs (a + words l) (loaded f l vs) (i_size i) f' -> runs py c i (g f') i) /\
     (is_listed py regs 15 = true -> cut_off c (wrap (a + words l)) 32 -> fails py c i (loaded f l vs) IndexError)) /\
  ((List.length vs < List.length l)%nat -> cut_off c (wrap (a + words vs)) 32 -> fails py c i (loaded f l vs) IndexError).
(** Write-back after a multiple load. *)
Definition rebased (regs n : Z) (wb : bool) (f : Z -> Z) : Z -> Z :=
  if wb && negb (Z.testbit regs n) then set f n (wrap (f n + 4 * reg_count regs)) else f.
(** Register contents [f] with the registers of the list [regs] and the stack pointer
    taken from [g]. *)
Definition restored (regs : Z) (g f : Z -> Z) : Z -> Z := fun k =>
  if (k =? 13) || (k =? 17) then g 13 else if (0 <=? k) && (k <=? 14) && Z.testbit regs k then g k else f k.
(** The [n] bytes from address [a] are in one region of the memory. *)
Definition in_one_region (c : cpu) (a n : Z) : Prop :=
  0 <= a /\ exists i m, forall o, 0 <= o < n -> located c (a + o) i m.

(** ** For the examples *)
Definition an_insn (k : klass) (l : list item) (is32 : bool) : insn :=
  mkinsn "" 0 is32 0 k [] (attributes l).
(** 64 bytes of memory at 0 and 8 at 4096. *)
Definition ex_ops : list cop :=
  [CopAddMem 0 64; CopAddMem 4096 8; CopR 0 (NInt 7); CopR 1 (NInt 0x80000001); CopR 2 (NInt 0xfffffff0);
   CopR 3 (NInt 16); CopR 4 (NInt 0x12345678); CopR 13 (NInt 48); CopR 14 (NInt 33); CopR 15 (NInt 34);
   CopFlag FC (VInt 1); CopMem (NInt 16) (NInt 0x80ff7f01) 32].
Definition ex_state : cpu := do_cops cpu_new ex_ops.
Definition reg_after (py : pyver) (c : cpu) (i : insn) (k : Z) : Z := reg (s_cpu (fst (execute py c i))) k.
Definition mem_after (py : pyver) (c : cpu) (i : insn) (a : Z) : option Z := cell (s_cpu (fst (execute py c i))) 0 a.
