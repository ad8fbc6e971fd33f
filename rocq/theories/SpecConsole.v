(** * Vocabulary for the statements about the console *)
From Verif Require Import SimModel SpecBits SpecCpu SpecWhole SpecDisasm SpecFormat SpecExec SpecDecoder SpecIsa SpecSim.
Local Open Scope string_scope.
Local Open Scope list_scope.
Local Open Scope Z_scope.
Local Open Scope bool_scope.

(** ** Lines and words *)
(** Space, tab, line feed, vertical tab, form feed, carriage return. *)
Definition space (c : ascii) : Prop := In (nat_of_ascii c) [32; 9; 10; 11; 12; 13]%nat.
Definition blank (t : string) : Prop := Forall space (chars t).
Definition word (t : string) : Prop := t <> "" /\ Forall (fun c => ~ space c) (chars t).
(** [line] is the words [ws] with white space between them, in front and behind. *)
Inductive spells : list string -> string -> Prop :=
| spells_nil : forall t, blank t -> spells [] t
| spells_last : forall t w, blank t -> word w -> spells [w] (t +++ w)
| spells_cons : forall t w c ws rest, blank t -> word w -> space c -> spells ws rest -> spells (w :: ws) (t +++ w +++ String c rest).
Definition no_char (c : ascii) (t : string) : Prop := ~ In c (chars t).
(** [line] is the commands [cs], separated by semicolons. *)
Inductive commands : list string -> string -> Prop :=
| commands_last : forall t, no_char ";" t -> commands [t] t
| commands_cons : forall t ts rest, no_char ";" t -> commands ts rest -> commands (t :: ts) (t +++ String ";" rest).
Definition starts (c : ascii) (t : string) : Prop := exists r, t = String c r.

(** ** Names of commands *)
Definition names_read8 := ["read"; "read8"; "r"; "rb"].
Definition names_read16 := ["read16"; "r16"; "rh"].
Definition names_read32 := ["read32"; "r32"; "rw"].
Definition names_write8 := ["write"; "write8"; "w"; "wb"].
Definition names_write16 := ["write16"; "w16"; "wh"].
Definition names_write32 := ["write32"; "w32"; "ww"].
Definition names_step := ["step"; "s"].
Definition names_disasm := ["disasm"; "d"].
Definition names_info := ["info"; "i"].
Definition names_exit := ["exit"; "quit"].
Definition names_help := ["help"; "?"].
Definition all_names : list string :=
  names_read8 ++ names_read16 ++ names_read32 ++ names_write8 ++ names_write16 ++ names_write32 ++
  names_step ++ names_disasm ++ names_info ++ names_exit ++ names_help ++ ["reg"; "wreg"; "reset"; "map"; "log"].
(** The commands that can change the machine. *)
Definition changing : list string := names_write8 ++ names_write16 ++ names_write32 ++ names_step ++ ["wreg"].

(** ** The help text *)
Definition help_text : string :=
  the_line "Commands:" +++ the_line "---------" +++
  the_line "d, disasm                 [-c/--center] ADDR [LEN] Disassemble instructions at an address" +++
  the_line "exit, quit                                     Quit the simulator" +++
  the_line "?, help                   [CMD]                Show help for commands" +++
  the_line "i, info                                        Display target type and IDs" +++
  the_line "log                       LEVEL                Set log level to one of debug, info, warning, error, critical" +++
  the_line "r16, read16, rh           ADDR [LEN]           Read 16-bit halfwords" +++
  the_line "r32, read32, rw           ADDR [LEN]           Read 32-bit words" +++
  the_line "r, rb, read, read8        ADDR [LEN]           Read 8-bit bytes" +++
  the_line "reg                       [REG]                Print all or one register" +++
  the_line "reset                     [-h/--halt]          Reset the target" +++
  the_line "stat, status                                   Show the target's current state" +++
  the_line "s, step                                        Step one instruction" +++
  the_line "wreg                      REG VALUE            Set the value of a register" +++
  the_line "w16, wh, write16          ADDR DATA...         Write 16-bit halfwords" +++
  the_line "w32, write32, ww          ADDR DATA...         Write 32-bit words" +++
  the_line "w, wb, write, write8      ADDR DATA...         Write 8-bit bytes" +++
  the_line "" +++
  the_line "All register names are also available as commands that print the register's value." +++
  the_line "Any ADDR or LEN argument will accept a register name.".
(** What the help lists: the names of each command. *)
Definition listed : list (list string) :=
  [["d"; "disasm"]; ["exit"; "quit"]; ["?"; "help"]; ["i"; "info"]; ["log"]; ["r16"; "read16"; "rh"]; ["r32"; "read32"; "rw"];
   ["r"; "rb"; "read"; "read8"]; ["reg"]; ["reset"]; ["stat"; "status"]; ["s"; "step"]; ["wreg"]; ["w16"; "wh"; "write16"];
   ["w32"; "write32"; "ww"]; ["w"; "wb"; "write"; "write8"]].

(** ** Registers *)
(** One column of the register display: the name, right justified, and the content. *)
Definition column (c : cpu) (wide : bool) (name : string) (k : Z) : string :=
  repeat_char " " ((if wide then 10 else 4) - S (String.length name)) +++ name +++ ": 0x" +++ hexn 8 (reg c k) +++ " ".
Definition four (c : cpu) (a : string) (i : Z) (b : string) (j : Z) (d : string) (k : Z) (e : string) (l : Z) : string :=
  the_line (column c false a i +++ " " +++ column c false b j +++ " " +++ column c false d k +++ " " +++ column c true e l).
Definition all_registers (c : cpu) : string :=
  four c "r0" 0 "r6" 6 "r12" 12 "xpsr" 16 +++
  four c "r1" 1 "r7" 7 "sp" 13 "control" (-4) +++
  four c "r2" 2 "r8" 8 "lr" 14 "primask" (-1) +++
  four c "r3" 3 "r9" 9 "pc" 15 "faultmask" (-3) +++
  four c "r4" 4 "r10" 10 "msp" 17 "basepri" (-2) +++
  the_line (column c false "r5" 5 +++ " " +++ column c false "r11" 11 +++ " " +++ column c false "psp" 18).

(** ** The disassembly command *)
Definition starts_dash (t : string) : bool := match t with String "-" _ => true | _ => false end.
(** One line: address, mark at the pc, text. *)
Definition listing_line (pc : Z) (i : insn) (text : string) : string :=
  the_line ("0x" +++ hexn 8 (i_address i) +++ ":" +++ (if pc =? i_address i then "*" else " ") +++ " " +++ text).
Inductive listing_text (pc : Z) : list insn -> string -> Prop :=
| lt_nil : listing_text pc [] ""
| lt_cons : forall i text l t, text_of (mkfmt None []) i = Ok text -> listing_text pc l t ->
    listing_text pc (i :: l) (listing_line pc i text +++ t).
(** [r] is [line] without the white space at both ends; it is not empty. *)
Definition trims (line r : string) : Prop := exists a b, blank a /\ blank b /\ line = a +++ r +++ b /\
  (exists c l, chars r = c :: l /\ ~ space c) /\ (exists c l, chars r = l ++ [c] /\ ~ space c).

(** ** Sessions *)
(** What every state of the console satisfies between two commands. *)
Definition sound (s : sim) : Prop := ready s /\ cpu_ok (sim_cpu s).
(** Argument [v] always stands for a 32-bit number. *)
Definition word_argument (v : string) : Prop := forall s s' x, sound s -> convert_value v s = (s', Done x) -> 0 <= x < 2 ^ 32.
(** The command does not write a number of more than 32 bits into a register. *)
Definition narrow (cmd : string) : Prop := forall w r v more, spells (w :: r :: v :: more) cmd -> lower w = "wreg" -> word_argument v.
(** The command is not a Python expression. *)
Definition not_python (cmd : string) : Prop := forall w args, spells (w :: args) cmd -> ~ starts "$" w.

(** ** Arguments of the disassembly command *)
Fixpoint repeated (c : ascii) (n : nat) : string := match n with O => "" | S n' => String c (repeated c n') end.
(** -c, -cc, ..., --center and its beginnings *)
Definition center_option (t : string) : Prop :=
  (exists n, t = "-" +++ repeated "c" (S n)) \/ In t ["--c"; "--ce"; "--cen"; "--cent"; "--cente"; "--center"].
Definition plain (t : string) : Prop := t = "-" \/ ~ starts "-" t.
(** The arguments have the option for centering or not, and besides the arguments [other]. *)
Inductive options : list string -> bool -> list string -> Prop :=
| options_nil : options [] false []
| options_stop : forall args, options ("--" :: args) false args
| options_center : forall t args b other, center_option t -> options args b other -> options (t :: args) true other
| options_plain : forall t args b other, plain t -> options args b other -> options (t :: args) b (t :: other).
(** Address and number of bytes, with what their conversion prints: by default 6 bytes at
    the pc. *)
Inductive disasm_args (c : cpu) : list string -> Z -> Z -> string -> Prop :=
| da_none : forall a pre, argument c "pc" a pre -> disasm_args c [] a 6 pre
| da_address : forall x a pre, argument c x a pre -> disasm_args c [x] a 6 pre
| da_both : forall x a pre y n pre' more, argument c x a pre -> argument c y n pre' -> disasm_args c (x :: y :: more) a n (pre +++ pre').
(** The address of the first instruction. *)
Definition first_address (center : bool) (a n : Z) : Z := let b := if center then a - n / 2 else a in b - b mod 2.
(** [s'] is [s] after printing [t] and decoding something. *)
Definition decoded (s : sim) (t : string) (s' : sim) : Prop :=
  exists tree, module_tree tree /\ printed (mksim (sim_cpu s) tree (sim_out s) (sim_soft s)) t s'.
