(** * Vocabulary for the statements about whole programs *)
From Verif Require Import BitstringModel SpecBits SpecArm CpuModel SpecCpu InsnModel SpecIsa ExecModel SpecExec.
Local Open Scope bool_scope.
Local Open Scope Z_scope.

(** The instruction may write the pc other than by moving on: it is a branch, or names
    the pc as destination (on Python 3 every pop and every multiple load does). *)
Definition is_pc (o : option Z) : bool := match o with Some k => k =? 15 | None => false end.
Definition wants (o : option bool) : bool := match o with Some b => b | None => false end.
Definition lists_pc (py : pyver) (o : option bs) : bool := match o with Some b => is_listed py (bv b) 15 | None => false end.
Definition names_pc (py : pyver) (i : insn) : bool :=
  let a := i_attrs i in
  match i_klass i with
  | Branch => true
  | Load => is_pc (a_t a) || wants (a_wback a) && is_pc (a_n a)
  | LoadLiteral => is_pc (a_t a)
  | LoadMultiple => lists_pc py (a_registers a) || wants (a_wback a) && is_pc (a_n a)
  | StoreMultiple => wants (a_wback a) && is_pc (a_n a)
  | Pop => lists_pc py (a_registers a)
  | Store | Push | Compare | Test | Instruction | ChangeProcessorState | MoveToSpecial => false
  | _ => is_pc (a_d a)
  end.
(** The immediate, if there is one, is not negative as a signed number. *)
Definition small_imm (i : insn) : Prop := forall b, a_imm32 (i_attrs i) = Some b -> bv b < 2 ^ 31.

(** No comparison or reverse subtraction with an immediate that is negative as a signed
    number: cmp.w, cmn.w and rsb.w leave such an immediate complemented. *)
Definition stable (i : insn) : Prop := i_klass i = Compare \/ i_klass i = ReverseSubtract -> small_imm i.

(** A machine and a pool of instruction objects; executing object number [n] changes both,
    also when it raises. *)
Definition step_pool (py : pyver) (s : cpu * list insn) (n : nat) : cpu * list insn :=
  let (c, l) := s in
  match nth_error l n with
  | Some i => let s' := fst (execute py c i) in (s_cpu s', firstn n l ++ s_self s' :: skipn (S n) l)
  | None => s
  end.
Definition run_pool (py : pyver) (s : cpu * list insn) (ns : list nat) : cpu * list insn := fold_left (step_pool py) ns s.
(** The object after being executed on each of the machines. *)
Definition rerun (py : pyver) (i : insn) (cs : list cpu) : insn := fold_left (fun i c => s_self (fst (execute py c i))) cs i.
(** The object was decoded from some bytes. *)
Definition from_bytes (py : pyver) (i : insn) : Prop := exists data a, bytes data /\ decode_bytes py data a = Ok i.
Definition sizes (l : list insn) : Z := fold_right (fun i n => i_size i + n) 0 l.

(** ** Conditions after a comparison of [a] and [b] *)
Definition compares (k a b : Z) : bool :=
  match k with
  | 0 => a =? b | 1 => negb (a =? b) | 2 => b <=? a | 3 => a <? b | 8 => b <? a | 9 => a <=? b
  | 10 => twos 32 b <=? twos 32 a | 11 => twos 32 a <? twos 32 b
  | 12 => twos 32 b <? twos 32 a | 13 => twos 32 a <=? twos 32 b
  | _ => true
  end.
(** The status register after executing [i]. *)
Definition xpsr_after (py : pyver) (c : cpu) (i : insn) : Z := reg (s_cpu (fst (execute py c i))) 16.
(** A machine like [ex_state] with some registers changed. *)
Definition ex_with (l : list (Z * Z)) : cpu := do_cops ex_state (map (fun '(k, v) => CopR k (NInt v)) l).
