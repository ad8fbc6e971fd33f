(** * Vocabulary for the statements about the simulator *)
From Verif Require Import SimModel SpecBits SpecCpu SpecWhole SpecDisasm SpecFormat SpecExec SpecDecoder SpecIsa.
Local Open Scope string_scope.
Local Open Scope list_scope.
Local Open Scope Z_scope.
Local Open Scope bool_scope.

(** ** Output *)
Fixpoint glue (l : list string) : string := match l with [] => "" | x :: l' => x +++ glue l' end.
(** [s'] is [s] after printing the text [t], which is over a whole number of lines. *)
Definition printed (s : sim) (t : string) (s' : sim) : Prop :=
  sim_cpu s' = sim_cpu s /\ sim_tree s' = sim_tree s /\ sim_soft s' = false /\
  exists l, sim_out s' = sim_out s ++ map Txt l /\ glue l = t.
(** The cursor is at the beginning of a line, and the tree is that of the module. *)
Definition ready (s : sim) : Prop := sim_soft s = false /\ module_tree (sim_tree s).
Definition the_line (t : string) : string := t +++ String "010" "".

(** Number [z] as exactly [w] lower-case hexadecimal digits. *)
Definition hex_digit (d : Z) : string :=
  nth (Z.to_nat d) ["0"; "1"; "2"; "3"; "4"; "5"; "6"; "7"; "8"; "9"; "a"; "b"; "c"; "d"; "e"; "f"] "".
Fixpoint hexn (w : nat) (z : Z) : string :=
  match w with O => "" | S w' => hexn w' (z / 16) +++ hex_digit (z mod 16) end.

(** ** Step *)
Definition even_pc (c : cpu) : Z := reg c 15 - reg c 15 mod 2.
(** The bytes behind the first instruction do not raise when they are decoded. *)
Definition quiet_rest (a : Z) (rest : list Z) : Prop :=
  rest = [] \/ match decode_bytes Py2 rest a with Ok _ | Err UndefinedInstructionError => True | _ => False end.

(** ** Memory commands *)
Definition width_ok (w : Z) : Prop := w = 8 \/ w = 16 \/ w = 32.
(** Units of [w] bits as bytes, lowest first. *)
Definition as_bytes (w : Z) (l : list Z) : list Z :=
  flat_map (fun v => map (fun k => (v / 256 ^ k) mod 256) (firstn (Z.to_nat (w / 8)) [0; 1; 2; 3])) l.
(** A dump of units of [w] bits from number [i] on: 16, 8 or 4 of them in a line that
    starts with [start] plus [step] times the number of its first unit; bytes are in groups
    of four. *)
Fixpoint dump_from (w step start i : Z) (l : list Z) : string :=
  match l with
  | [] => ""
  | d :: l' =>
    (if i mod (128 / w) =? 0 then hexn 8 (start + step * i) +++ ": " else "") +++
    " " +++ hexn (Z.to_nat (w / 4)) d +++
    (if (w =? 8) && ((i + 1) mod 4 =? 0) then " " else "") +++
    (match l' with
     | [] => String "010" ""
     | _ => if (i + 1) mod (128 / w) =? 0 then String "010" "" else ""
     end) +++ dump_from w step start (i + 1) l'
  end.
(** What the code prints: it counts units, not bytes. *)
Definition dump_text (w start : Z) (l : list Z) : string := dump_from w 1 start 0 l.
(** What it should print. *)
Definition right_dump (w start : Z) (l : list Z) : string := dump_from w (w / 8) start 0 l.

(** ** Arguments *)
(** Text for a number: decimal, or with a prefix hexadecimal, octal (old and new style) or
    binary. *)
Inductive numeral : string -> Z -> Prop :=
| num_dec : forall t n, canonical 10 t n -> numeral t n
| num_hex : forall t n, t <> "" -> denotes 16 t n -> numeral ("0x" +++ t) n
| num_oct : forall t n, t <> "" -> denotes 8 t n -> numeral ("0o" +++ t) n
| num_old : forall t n, t <> "" -> denotes 8 t n -> numeral ("0" +++ t) n
| num_bin : forall t n, t <> "" -> denotes 2 t n -> numeral ("0b" +++ t) n.
Inductive integer : string -> Z -> Prop :=
| int_plain : forall t n, numeral t n -> integer t n
| int_minus : forall t n, numeral t n -> integer ("-" +++ t) (- n)
| int_plus : forall t n, numeral t n -> integer ("+" +++ t) n.
(** What a base inside brackets means, and the line that is printed when it is a register. *)
Inductive base_value (c : cpu) : string -> Z -> string -> Prop :=
| base_integer : forall t n, integer t n -> base_value c t n ""
| base_register : forall t k, register_name_to_index (RName t) = Some k ->
    base_value c t (reg c k) (the_line (lower t +++ " = 0x" +++ hexn 8 (reg c k))).
(** [x] in brackets, with an offset or without. *)
Inductive bracketed (x : string) : string -> Z -> Prop :=
| bracket_plain : bracketed x ("[" +++ x +++ "]") 0
| bracket_offset : forall o n, integer o n -> bracketed x ("[" +++ x +++ "," +++ o +++ "]") n.

(** Argument [t] means [v] on machine [c], and its conversion prints [pre]: a number or a
    register, or the word at the address given by one of them and an offset; in any
    mixture of cases and with underscores anywhere. *)
Inductive argument (c : cpu) : string -> Z -> string -> Prop :=
| arg_base : forall t v pre, base_value c t v pre -> argument c t v pre
| arg_word : forall x a pre t off i m l o, base_value c x a pre -> bracketed x t off ->
    located c (a + off) i m -> take_cells c i (a + off - m_start m) 4 = Some l -> dec_text o off ->
    argument c t (le_number l) (pre +++ the_line ("[" +++ lower x +++ "," +++ o +++ "] = 0x" +++ hexn 8 (le_number l)))
| arg_case : forall t v pre, argument c (lower t) v pre -> argument c t v pre
| arg_underscore : forall a b v pre, argument c (a +++ b) v pre -> argument c (a +++ "_" +++ b) v pre.
Inductive arguments (c : cpu) : list string -> list Z -> string -> Prop :=
| args_nil : arguments c [] [] ""
| args_cons : forall t v pre ts vs pres, argument c t v pre -> arguments c ts vs pres -> arguments c (t :: ts) (v :: vs) (pre +++ pres).
(** The arguments behind the address of a read of width [w]: the number of bytes, one unit
    if it is missing. *)
Inductive count_args (c : cpu) (w : Z) : list string -> Z -> string -> Prop :=
| count_default : count_args c w [] (w / 8) ""
| count_given : forall t v pre more, argument c t v pre -> count_args c w (t :: more) v pre.
(** Console [s] with another machine. *)
Definition on_cpu (s : sim) (c : cpu) : sim := mksim c (sim_tree s) (sim_out s) (sim_soft s).

(** ** Reset *)
Definition flash_size (binary : list Z) : Z := Z.max 65536 (Z.of_nat (List.length binary)).
(** Word at byte offset [o] of the binary, with zeros behind its end. *)
Definition vector (binary : list Z) (o : nat) : Z := le_number (map (fun k => nth k binary 0) [o; o + 1; o + 2; o + 3]%nat).
Definition ram_start : Z := 536838144.
Definition ram_size (binary : list Z) : Z :=
  let sp := vector binary 0 in if sp =? 0 then 65536 else Z.max (sp - ram_start) 65536.
Definition is_mapped (binary : list Z) (a : Z) : bool :=
  ((0 <=? a) && (a <? flash_size binary)) || ((ram_start <=? a) && (a <? ram_start + ram_size binary)).

(** ** Examples *)
(** The console on machine [c] with the tree of the module. *)
Definition on_sim (c : cpu) (k : sim -> Prop) : Prop :=
  match DECODER_TREE with Ok t => k (mksim c t [] false) | Err _ => False end.
Definition out_text (s : sim) : string :=
  glue (map (fun c => match c with Txt t => t | ErrText _ => "?" | LevelError => "!" end) (sim_out s)).
(** A fresh machine with the bytes [l] at address 0 and nothing else. *)
Definition ex_code (l : list Z) : cpu := do_cops cpu_new [CopAddMem 0 (Z.of_nat (List.length l)); CopBlock 0 l].

(** The machine made from a binary. *)
Definition fresh_sim (binary : list Z) : cpu :=
  mkcpu (c_regs cpu_new)
    [mkmem 0 (flash_size binary - 1) (binary ++ repeat 0 (Z.to_nat (flash_size binary) - List.length binary));
     mkmem ram_start (ram_start + ram_size binary - 1) (repeat 0 (Z.to_nat (ram_size binary)))].
Definition mapped_in (c : cpu) (a : Z) : bool := existsb (fun m => (m_start m <=? a) && (a <=? m_end m)) (c_mem c).
Definition reset_text (pc sp : Z) : string :=
  the_line "CPU model reset." +++ the_line ("PC = 0x" +++ hexn 8 pc) +++ the_line ("SP = 0x" +++ hexn 8 sp).
