(** * Vocabulary for the statements about executing instructions over any delegate *)
From Verif Require Import DelegateExecModel SpecBits SpecApi SpecExec.
Local Open Scope Z_scope.

(** ** Delegates that behave alike *)

(** The answers to two calls: the same value or exception, and related delegates afterwards. *)
Definition alike {S1 S2 A} (R : S1 -> S2 -> Prop) (x : S1 * res A) (y : S2 * res A) : Prop :=
  snd x = snd y /\ R (fst x) (fst y).
(** Delegates related by [R] answer every call alike. *)
Definition mimics {S1 S2} (R : S1 -> S2 -> Prop) (d1 : delegate S1) (d2 : delegate S2) : Prop :=
  forall s1 s2, R s1 s2 ->
    (forall k, alike R (del_read_register d1 k s1) (del_read_register d2 k s2)) /\
    (forall k v, alike R (del_write_register d1 k v s1) (del_write_register d2 k v s2)) /\
    (forall a n, alike R (del_read_memory d1 a n s1) (del_read_memory d2 a n s2)) /\
    (forall a v n, alike R (del_write_memory d1 a v n s1) (del_write_memory d2 a v n s2)).

(** ** What a delegate sees *)

(** A call repeated: what it makes of the delegate, and what it is answered. *)
Definition repeated {S} (d : delegate S) (c : dcall) (s : S) : S :=
  match c with
  | DReadReg k => fst (del_read_register d k s)
  | DWriteReg k v => fst (del_write_register d k v s)
  | DReadMem a n => fst (del_read_memory d a n s)
  | DWriteMem a v n => fst (del_write_memory d a v n s)
  end.
Definition refused {S} (d : delegate S) (c : dcall) (s : S) : option exc :=
  match c with
  | DReadReg k => match snd (del_read_register d k s) with Ok _ => None | Err e => Some e end
  | DWriteReg k v => match snd (del_write_register d k v s) with Ok _ => None | Err e => Some e end
  | DReadMem a n => match snd (del_read_memory d a n s) with Ok _ => None | Err e => Some e end
  | DWriteMem a v n => match snd (del_write_memory d a v n s) with Ok _ => None | Err e => Some e end
  end.
Definition replay {S} (d : delegate S) (l : list dcall) (s : S) : S := fold_left (fun s c => repeated d c s) l s.

(** A call without the values: what is accessed. *)
Inductive access := RReg (k : option Z) | WReg (k : option Z) | RMem (size : Z) | WMem (size : Z).
Definition access_of (c : dcall) : access :=
  match c with
  | DReadReg k => RReg k
  | DWriteReg k _ => WReg k
  | DReadMem _ n => RMem n
  | DWriteMem _ _ n => WMem n
  end.

(** ** Which calls an instruction makes, in which order *)

(** An attribute that is a register; one that is missing is never got to. *)
Definition rd (o : option Z) : access := RReg (Some (match o with Some k => k | None => 0 end)).
Definition wr_ (o : option Z) : access := WReg (Some (match o with Some k => k | None => 0 end)).
Definition when (b : bool) (l : list access) : list access := if b then l else [].
Definition given {A} (o : option A) : bool := match o with Some _ => true | None => false end.
Definition is_on (o : option bool) : bool := match o with Some b => b | None => false end.
Definition sized (o : option Z) : Z := match o with Some n => n | None => 0 end.

(** [cpu.pc += size], an assignment to a flag, to [n] flags *)
Definition next_pc : list access := [RReg (Some 15); WReg (Some 15)].
Fixpoint flag_writes (n : nat) : list access :=
  match n with O => [] | S n' => RReg (Some 16) :: WReg (Some 16) :: flag_writes n' end.
(** The same, if the instruction sets flags *)
Definition flags_if (o : option setflags) (n : nat) : list access :=
  match o with Some Never => [] | _ => flag_writes n end.

Definition regs_of (i : insn) : Z := match a_registers (i_attrs i) with Some b => bv b | None => 0 end.
Definition stores (py : pyver) (i : insn) : list access :=
  flat_map (fun k => [RReg (Some k); WMem 32]) (transferred py (regs_of i)).
Definition loads (py : pyver) (i : insn) : list access :=
  flat_map (fun k => [RMem 32; WReg (Some k)]) (transferred py (regs_of i)).
Definition loads_pc (py : pyver) (i : insn) : list access :=
  if is_listed py (regs_of i) 15 then [RMem 32; WReg (Some 15)] else next_pc.

(** The reads of the flags for a condition, together with whether the branch is then taken: the
    second operand of a conjunction or disjunction is only looked at if need be. *)
Definition flag_reads (n : nat) : list access := repeat (RReg (Some 16)) n.
Definition either (n : nat) : list (list access * bool) := [(flag_reads n, true); (flag_reads n, false)].
Definition decides (k : Z) : list (list access * bool) :=
  if (0 <=? k) && (k <? 8) then either 1
  else if k =? 8 then (flag_reads 1, false) :: either 2
  else if k =? 9 then (flag_reads 1, true) :: either 2
  else if (k =? 10) || (k =? 11) then either 2
  else if k =? 12 then (flag_reads 1, false) :: either 3
  else if k =? 13 then (flag_reads 1, true) :: either 3
  else if (k =? 14) || (k =? 15) then [([], true)]
  else [([], false)].
Definition branches (i : insn) : list (list access) :=
  let a := i_attrs i in
  map (fun '(l, taken) =>
    l ++ (if taken : bool then
            RReg (Some 15) :: when (is_on (a_with_link a)) [WReg (Some 14)] ++ when (given (a_m a)) [rd (a_m a)] ++ [WReg (Some 15)]
          else next_pc))
    (match a_cond a with Some k => decides k | None => [([], false)] end).

(** The address of a load or a store. *)
Definition addressing (i : insn) : list access :=
  let a := i_attrs i in
  when (negb (given (a_imm32 a))) [rd (a_m a); RReg (Some 16)] ++ [rd (a_n a)] ++ when (negb (is_on (a_index a))) [rd (a_n a)].

(** The special register read by MRS, by the number in the encoding; an unprivileged program
    does not get to read most of them. *)
Definition if_privileged (k : Z) : list (list access) := [[RReg (Some (-4)); RReg (Some k)]; [RReg (Some (-4))]].
Definition special_reads (v : Z) : list (list access) :=
  match v with
  | 1 | 3 | 5 | 7 => [[RReg (Some 16)]]
  | 8 => if_privileged 17
  | 9 => if_privileged 18
  | 10 | 11 | 12 | 13 | 14 | 15 => [[RReg (Some (-4))]]
  | 16 => if_privileged (-1)
  | 17 | 18 => if_privileged (-2)
  | 19 => if_privileged (-3)
  | 20 => [[RReg (Some (-4))]]
  | _ => [[]]
  end.

(** The calls of [i.execute(cpu)], one list for every way it may go. *)
Definition scripts (py : pyver) (i : insn) : list (list access) :=
  let a := i_attrs i in
  match i_klass i with
  | Instruction | MoveToSpecial => [next_pc]
  | AddSub =>
    [rd (a_n a) :: when (negb (given (a_imm32 a))) [rd (a_m a)] ++ when (is_on (a_use_carry a)) [RReg (Some 16)] ++
     wr_ (a_d a) :: flags_if (a_setflags a) 4 ++ next_pc]
  | BitOp | BitClear | Multiply => [rd (a_n a) :: rd (a_m a) :: wr_ (a_d a) :: flags_if (a_setflags a) 2 ++ next_pc]
  | ShiftOp =>
    [when (negb (given (a_shift_n a))) [rd (a_m a)] ++ rd (a_n a) :: RReg (Some 16) :: wr_ (a_d a) ::
     flags_if (a_setflags a) 3 ++ next_pc]
  | ReverseSubtract => [rd (a_n a) :: wr_ (a_d a) :: flags_if (a_setflags a) 4 ++ next_pc]
  | AddressToRegister => [RReg (Some 15) :: wr_ (a_d a) :: next_pc]
  | Extend | ByteReverse => [rd (a_m a) :: wr_ (a_d a) :: next_pc]
  | Move =>
    [when (given (a_m a)) [rd (a_m a)] ++ wr_ (a_d a) :: RReg (Some 16) ::
     (if match a_m a with Some m => m =? 15 | None => false end then [] else flags_if (a_setflags a) 3) ++ next_pc]
  | ShiftedMoveNegate => [[]]
  | Compare => [when (given (a_m a)) [rd (a_m a)] ++ rd (a_n a) :: flag_writes 4 ++ next_pc]
  | Test => [rd (a_m a) :: RReg (Some 16) :: rd (a_n a) :: flag_writes 3 ++ next_pc]
  | Branch => branches i
  | Load =>
    [addressing i ++ RMem (sized (a_memsize a)) :: when (is_on (a_wback a)) [wr_ (a_n a)] ++ wr_ (a_t a) :: next_pc]
  | Store => [addressing i ++ rd (a_t a) :: WMem (sized (a_memsize a)) :: next_pc]
  | LoadLiteral => [RReg (Some 15) :: RMem (sized (a_memsize a)) :: wr_ (a_t a) :: next_pc]
  | Push => [RReg (Some 13) :: WReg (Some 13) :: stores py i ++ next_pc]
  | Pop => [RReg (Some 13) :: RReg (Some 13) :: WReg (Some 13) :: loads py i ++ loads_pc py i]
  | LoadMultiple =>
    [rd (a_n a) :: loads py i ++ loads_pc py i ++
     when (is_on (a_wback a) && negb (Z.testbit (regs_of i) (sized (a_n a)))) [rd (a_n a); wr_ (a_n a)]]
  | StoreMultiple => [rd (a_n a) :: stores py i ++ when (is_on (a_wback a)) [wr_ (a_n a)] ++ next_pc]
  | ChangeProcessorState =>
    [when (is_on (a_affectPri a)) [WReg (Some (-1))] ++ when (is_on (a_affectFault a)) [WReg (Some (-3))] ++ next_pc]
  | MoveFromSpecial =>
    map (fun l => l ++ wr_ (a_d a) :: next_pc) (match a_SYSm a with Some y => special_reads (bv y) | None => [[]] end)
  end.

(** What every decoder makes: the number of a special register has 8 bits, that of a base
    register is not negative. *)
Definition formed (i : insn) : Prop :=
  match i_klass i with
  | MoveFromSpecial => match a_SYSm (i_attrs i) with Some y => exists v, y = bits 8 v /\ 0 <= v < 256 | None => True end
  | LoadMultiple => match a_n (i_attrs i) with Some n => 0 <= n | None => True end
  | _ => True
  end.
(** A list that starts another. *)
Definition begins {A} (l k : list A) : Prop := exists m, k = l ++ m.

(** For the examples: [ands r0, r1] *)
Definition ex_ands : insn := mkinsn "ands" 0x4008 false 0 BitOp []
  (with_op OpAnd (with_setflags NotInITBlock (with_d 0 (with_n 0 (with_m 1 no_attrs))))).
