(** * Vocabulary for statements about several instructions *)
From Verif Require Import SimModel SpecBits SpecArm SpecCpu SpecFormat SpecSim SpecConsole SpecWhole SpecExec SpecIsa.
Local Open Scope string_scope.
Local Open Scope list_scope.
Local Open Scope Z_scope.

(** The machine runs from [c] to [c'] by executing one instruction after the other, each
    decoded from the bytes at the pc; [lines] are their texts.  The bytes behind each, of the
    four that are read, do not raise (see C63). *)
Inductive runs_on : cpu -> list string -> cpu -> Prop :=
| runs_stop : forall c, runs_on c [] c
| runs_next : forall c code i st text lines c',
    read_memory_block c (even_pc c) 4 = Some code -> decode_bytes Py2 code (even_pc c) = Ok i ->
    quiet_rest (even_pc c + i_size i) (skipn (Z.to_nat (i_size i)) code) ->
    execute Py2 c i = (st, Ok tt) -> text_of (mkfmt None []) i = Ok text -> runs_on (s_cpu st) lines c' ->
    runs_on c (the_line ("0x" +++ hexn 8 (even_pc c) +++ ":  " +++ text) :: lines) c'.

(** A command that steps, a line that consists of one. *)
Definition step_command (r : string) : Prop := exists w args, spells (w :: args) r /\ In (lower w) names_step.
Definition step_line (t : string) : Prop := exists r, trims t r /\ no_char ";" r /\ step_command r.

(** Instruction [i] of class [k] (a load or store) transfers [ms] bits between register [t]
    and the address [a]. *)
Inductive transfers (c : cpu) (k : klass) (i : insn) (t ms : Z) (sgn : bool) : Z -> Prop :=
| transfers_imm : forall n v add, gpr n -> word v ->
    is_insn i k [T t; N n; Imm v; Idx true; Add add; Wb false; Mem ms; Sgn sgn] ->
    transfers c k i t ms sgn (offset_from add (reg c n) v)
| transfers_reg : forall n m ty amount add, gpr n -> gpr m -> 0 <= amount -> (ty = SR_RRX -> amount = 1) ->
    is_insn i k [T t; N n; M m; ShT ty; ShN amount; Idx true; Add add; Wb false; Mem ms; Sgn sgn] ->
    transfers c k i t ms sgn (offset_from add (reg c n) (fst (shift_result ty 32 (reg c m) amount (flag_C (reg c 16))))).

(** A program for the examples: movs r0, #1; adds r0, r0, #1; nop; nop. *)
Definition ex_program : list Z := [0; 4; 0; 32; 8; 0; 0; 0; 1; 32; 64; 28; 0; 191; 0; 191].
(** A small machine with the same program. *)
Definition ex_machine : cpu :=
  do_cops cpu_new [CopAddMem 0 16; CopR 15 (NInt 8); CopMem (NInt 8) (NInt 0x1c402001) 32; CopMem (NInt 12) (NInt 0xbf00bf00) 32].
