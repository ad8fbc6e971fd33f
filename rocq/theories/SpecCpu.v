(** * Vocabulary for the statements about the machine state *)
From Verif Require Import BitstringModel SpecBits CpuModel.

(** The numbers of the registers of the register file: r0-r15 are 0-15, xpsr 16,
    msp 17, psp 18, primask -1, basepri -2, faultmask -3, control -4, fpscr 33,
    s0-s31 64-95. *)
Definition core (k : Z) : Prop := -4 <= k <= 18 \/ k = 33 \/ 64 <= k <= 95.

(** Stored content of register [k] (0 if there is none). *)
Definition reg (c : cpu) (k : Z) : Z :=
  match reg_get (c_regs c) (Some k) with Some v => v | None => 0 end.

(** Every register exists and holds a 32-bit number. *)
Definition regs_ok (c : cpu) : Prop :=
  forall k, core k -> exists v, reg_get (c_regs c) (Some k) = Some v /\ 0 <= v < 2 ^ 32.

(** The stack pointers are word aligned and sp is the main stack pointer. *)
Definition sp_ok (c : cpu) : Prop :=
  reg c 13 mod 4 = 0 /\ reg c 17 = reg c 13 /\ reg c 18 mod 4 = 0.

(** What a register keeps of a value written to it. *)
Definition kept (k v : Z) : Z :=
  if (k =? 13) || (k =? 17) || (k =? 18) then v - v mod 4
  else if (k =? -1) || (k =? -3) then v mod 2
  else if k =? -2 then v mod 256
  else v.

(** The registers a write to register [k] stores into. *)
Definition written (k j : Z) : bool :=
  (j =? k) || ((k =? 13) && (j =? 17)) || ((k =? 17) && (j =? 13)).

(** ** Memory *)
Definition in_region (m : membuf) (a : Z) : Prop := m_start m <= a <= m_end m.

(** The first region containing address [a] is number [i], namely [m]. *)
Definition located (c : cpu) (a : Z) (i : nat) (m : membuf) : Prop :=
  nth_error (c_mem c) i = Some m /\ in_region m a /\
  forall j m', (j < i)%nat -> nth_error (c_mem c) j = Some m' -> ~ in_region m' a.

Definition unmapped (c : cpu) (a : Z) : Prop := forall m, In m (c_mem c) -> ~ in_region m a.

(** Byte at offset [o] of region [i]. *)
Definition cell (c : cpu) (i : nat) (o : Z) : option Z :=
  match nth_error (c_mem c) i with
  | Some m => if o <? 0 then None else nth_error (m_data m) (Z.to_nat o)
  | None => None
  end.

(** The [n] bytes from offset [o] of region [i], if they are all there. *)
Fixpoint take_cells (c : cpu) (i : nat) (o : Z) (n : nat) : option (list Z) :=
  match n with
  | O => Some []
  | S n' => match cell c i o, take_cells c i (o + 1) n' with
            | Some b, Some l => Some (b :: l)
            | _, _ => None
            end
  end.

(** The bytes stored for the address range of every region are there and are bytes. *)
Definition region_ok (m : membuf) : Prop :=
  Forall (fun x => 0 <= x < 256) (m_data m) /\
  m_end m - m_start m + 1 <= Z.of_nat (List.length (m_data m)).
Definition mem_ok (c : cpu) : Prop := Forall region_ok (c_mem c).

(** The mapped address ranges. *)
Definition layout (c : cpu) : list (Z * Z) := map (fun m => (m_start m, m_end m)) (c_mem c).

Definition cpu_ok (c : cpu) : Prop := regs_ok c /\ sp_ok c /\ mem_ok c.

(** A memory write: address, value, number of bits. *)
Record wr := mkwr { w_addr : Z; w_val : Z; w_size : Z }.
Definition wr_ok (w : wr) : Prop :=
  (w_size w = 8 /\ 0 <= w_val w < 256) \/ w_size w = 16 \/ w_size w = 32.
Fixpoint run_writes (c : cpu) (ws : list wr) : res cpu :=
  match ws with
  | [] => Ok c
  | w :: ws' => let* c' := write_memory c (NInt (w_addr w)) (NInt (w_val w)) (w_size w) in run_writes c' ws'
  end.
(** Byte that the write [w] puts at offset [o] of region [i], if it covers it. *)
Definition wr_byte (c : cpu) (w : wr) (i : nat) (o v : Z) : Prop :=
  exists m, located c (w_addr w) i m /\
  let off := w_addr w - m_start m in
  off <= o < off + w_size w / 8 /\ v = (w_val w / 256 ^ (o - off)) mod 256.
(** The byte at (i,o) after the writes [ws] (in order) on the memory [c]: that of
    the last covering write, otherwise the initial one. *)
Inductive last_byte (c : cpu) (i : nat) (o : Z) : list wr -> option Z -> Prop :=
| last_init : last_byte c i o [] (cell c i o)
| last_hit : forall ws w v, wr_byte c w i o v -> last_byte c i o (ws ++ [w]) (Some v)
| last_miss : forall ws w b, (forall v, ~ wr_byte c w i o v) -> last_byte c i o ws b ->
    last_byte c i o (ws ++ [w]) b.

(** [x] with bit [i] replaced by [b]. *)
Definition put_bit (x i : Z) (b : bool) : Z := if b then Z.setbit x i else Z.clearbit x i.

(** One call on the machine's interface; a call that raises leaves it as it was. *)
Inductive cop :=
| CopReg (r : regref) (v : num)
| CopR (k : Z) (v : num)
| CopS (k : Z) (v : num)
| CopFlag (f : flag) (v : pyval)
| CopMem (a v : num) (size : Z)
| CopBlock (a : Z) (data : list Z)
| CopAddMem (start length : Z).
Definition after (c : cpu) (r : res cpu) : cpu := match r with Ok c' => c' | Err _ => c end.
Definition do_cop (c : cpu) (o : cop) : cpu :=
  match o with
  | CopReg r v => write_register c r v
  | CopR k v => after c (r_set c k v)
  | CopS k v => after c (s_set c k v)
  | CopFlag f v => after c (apsr_set c f v)
  | CopMem a v size => after c (write_memory c a v size)
  | CopBlock a data => after c (write_memory_block c a data)
  | CopAddMem s l => after c (add_memory c s l)
  end.
Definition do_cops (c : cpu) (l : list cop) : cpu := fold_left do_cop l c.
(** The values passed are 32-bit. *)
Definition cop_ok (o : cop) : Prop :=
  match o with CopReg _ v | CopR _ v | CopS _ v => 0 <= num_val v < 2 ^ 32 | _ => True end.

(** A machine with two regions, used in the examples. *)
Definition ex_cpu : cpu := mkcpu (c_regs cpu_new)
  [mkmem 0 7 [1; 2; 3; 4; 5; 6; 7; 8]; mkmem 256 259 [17; 34; 51; 68]].
