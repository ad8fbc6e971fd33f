(** * Model of /repo/cmdis/__main__.py: the interactive simulator

    The file is Python 2 only ([print] statements), so everything here runs with [Py2].
    In [ProgramModel.v] and [ArgsModel.v]: [get_args], [configure_logging], reading the binary
    file, KeyboardInterrupt, [handle_python] ([eval] of a command starting with a dollar sign:
    the model stops there).  Not modelled: [raw_input] and its prompt, the effect of [handle_log] on the logging
    module, tracebacks (they go to stderr), the texts of exceptions raised by Python
    itself and the order of [LEVELS.keys()] (see [chunk]). *)
From Verif Require Export ExecModel DisasmModel FormatModel.
Local Open Scope Z_scope.

(** ** Output *)

(** A piece of standard output: text, the text of an exception, or the line that lists the
    log levels in the order of the dictionary. *)
Inductive chunk := Txt (s : string) | ErrText (e : exc) | LevelError.

(** The console: the machine, the decoder tree of the module, what has been printed (in
    order), and the [softspace] attribute of stdout. *)
Record sim := mksim { sim_cpu : cpu; sim_tree : dtree hid; sim_out : list chunk; sim_soft : bool }.

(** What can leave a handler: an exception of Python or of the library, ToolError with its
    text, ToolExitException, SystemExit (raised by optparse), or an [eval].  The last two are
    for [ProgramModel.v]: SystemExit and KeyboardInterrupt raised by an expression. *)
Inductive sexc := Raised (e : exc) | Tool (msg : string) | ToolExit | SysExit | Eval (expr : string)
  | Quit (code : Z) | Interrupt.
Inductive sres (A : Type) := Done (a : A) | Fail (e : sexc).
Arguments Done {A} a.
Arguments Fail {A} e.

Definition act (A : Type) := sim -> sim * sres A.
Definition sret {A} (a : A) : act A := fun s => (s, Done a).
Definition sfail {A} (e : sexc) : act A := fun s => (s, Fail e).
Definition sbind {A B} (m : act A) (k : A -> act B) : act B :=
  fun s => match m s with (s', Done a) => k a s' | (s', Fail e) => (s', Fail e) end.
Notation "'do*' x := m 'in' k" := (sbind m (fun x => k)) (at level 200, x name, m at level 100, k at level 200).
Notation "'do*' ' x := m 'in' k" := (sbind m (fun x => k)) (at level 200, x strict pattern, m at level 100, k at level 200).
Notation "m ;; k" := (sbind m (fun _ => k)) (at level 100, k at level 200, right associativity).
(** A computation that does not touch the console. *)
Definition slift {A} (r : res A) : act A := fun s => (s, match r with Ok a => Done a | Err e => Fail (Raised e) end).
Definition the_cpu : act cpu := fun s => (s, Done (sim_cpu s)).
Definition set_cpu (c : cpu) : act unit := fun s => (mksim c (sim_tree s) (sim_out s) (sim_soft s), Done tt).

(** The [print] statement of Python 2: an item is preceded by a blank if [softspace] is
    set; afterwards it is set unless the item ends in white space other than a blank. *)
Fixpoint last_char (s : string) : option ascii :=
  match s with
  | EmptyString => None
  | String c EmptyString => Some c
  | String _ s' => last_char s'
  end.
Definition soft_after (c : chunk) : bool :=
  match c with
  | Txt s => match last_char s with
             | None => true
             | Some a => (negb (is_ws a) || Ascii.eqb a " ")%bool
             end
  | _ => true
  end.
Definition print_item (c : chunk) : act unit := fun s =>
  (mksim (sim_cpu s) (sim_tree s)
     (sim_out s ++ (if sim_soft s then [Txt " "] else []) ++ [c]) (soft_after c), Done tt).
Definition newline : string := String "010"%char EmptyString.
Definition print_end : act unit := fun s =>
  (mksim (sim_cpu s) (sim_tree s) (sim_out s ++ [Txt newline]) false, Done tt).
(** [print s,] and [print s] *)
Definition print_comma (t : string) : act unit := print_item (Txt t).
Definition print (t : string) : act unit := print_comma t ;; print_end.

(** ** Strings *)
Definition str_filter (p : ascii -> bool) (s : string) : string := of_chars (filter p (chars s)).
(** [s.strip()] *)
Definition strip (s : string) : string := of_chars (strip_ws (chars s)).
(** [s.split(c)]: the parts between the separators, always at least one *)
Fixpoint split_on (c : ascii) (l : list ascii) : list (list ascii) :=
  match l with
  | [] => [[]]
  | a :: l' => if Ascii.eqb a c then [] :: split_on c l' else
               match split_on c l' with
               | w :: ws => (a :: w) :: ws
               | [] => [[a]]
               end
  end.
Definition split (c : ascii) (s : string) : list string := map of_chars (split_on c (chars s)).
(** [s.split()]: the non-empty parts between runs of white space *)
Fixpoint words_on (l : list ascii) : list (list ascii) :=
  match l with
  | [] => [[]]
  | a :: l' => if is_ws a then [] :: words_on l' else
               match words_on l' with
               | w :: ws => (a :: w) :: ws
               | [] => [[a]]
               end
  end.
Definition words (s : string) : list string :=
  map of_chars (filter (fun w => match w with [] => false | _ => true end) (words_on (chars s))).

(** [s[1:-1]] *)
Definition inner (s : string) : string :=
  of_chars (match chars s with [] => [] | _ :: l => removelast l end).

(** [int(s, base=0)] of Python 2.  The arguments come from [str.split()], are in lower
    case and without underscores, so there is no white space to skip.  Not covered: the
    suffix [L], which Python 2 accepts on numbers beyond a machine word. *)
Definition digit_in (b : Z) (c : ascii) : option Z :=
  let n := Z.of_nat (nat_of_ascii c) in
  let d := if ((48 <=? n) && (n <=? 57))%bool then n - 48
           else if ((97 <=? n) && (n <=? 122))%bool then n - 87
           else if ((65 <=? n) && (n <=? 90))%bool then n - 55 else b in
  if d <? b then Some d else None.
Fixpoint digits_in (b acc : Z) (l : list ascii) : option Z :=
  match l with
  | [] => Some acc
  | c :: l' => match digit_in b c with Some d => digits_in b (acc * b + d) l' | None => None end
  end.
Definition number_in (b : Z) (l : list ascii) : option Z :=
  match l with [] => None | _ => digits_in b 0 l end.
Definition int0_unsigned (l : list ascii) : option Z :=
  match l with
  | "0"%char :: c :: l' =>
    if (Ascii.eqb c "x" || Ascii.eqb c "X")%bool then number_in 16 l'
    else if (Ascii.eqb c "o" || Ascii.eqb c "O")%bool then number_in 8 l'
    else if (Ascii.eqb c "b" || Ascii.eqb c "B")%bool then number_in 2 l'
    else number_in 8 (c :: l')
  | _ => number_in 10 l
  end.
Definition int_base0 (s : string) : res Z :=
  let r := match chars s with
           | "-"%char :: l => option_map Z.opp (int0_unsigned l)
           | "+"%char :: l => int0_unsigned l
           | l => int0_unsigned l
           end in
  match r with Some z => Ok z | None => Err ValueError end.

(** ["{:#010x}".format(z)] for [z >= 0], and ["{:>w}".format(s)] *)
Definition fmt_addr (z : Z) : string := ("0x" ++ fmt_0x 8 z)%string.
Definition pad_left (w : Z) (s : string) : string :=
  (repeat_char " " (Z.to_nat (w - strlen s)) ++ s)%string.

Definition is_register (s : string) : bool :=
  match dict_get String.eqb s CORE_REGISTER with Some _ => true | None => false end.

(** ** SimTool *)

(** [read_memory_block] gives None for an address outside the memory; the callers then
    raise TypeError: [len(None)] in disasm.py:28, __main__.py:142 and utilities.py, and
    [None[offset]] in utilities.py:31. *)
Definition block (addr length : Z) : act (list Z) :=
  do* c := the_cpu in
  match read_memory_block c addr length with
  | Some data => sret data
  | None => sfail (Raised TypeError)
  end.

(** __main__.py:562-568, 576: what is inside the brackets *)
Definition bracket_parts (arg : string) : act (string * Z) :=
  let arg := inner arg in
  match split "," arg with
  | [arg; offset] => do* offset := slift (int_base0 (strip offset)) in sret (strip arg, offset)
  | [_] => sret (arg, 0)
  | _ => sfail (Raised ValueError)
  end.
(** __main__.py:570-574 *)
Definition register_or_int (arg : string) : act Z :=
  if is_register arg then
    do* c := the_cpu in
    do* v := slift (read_register c (RName arg)) in
    let value := bs_unsigned v in
    print (arg ++ " = 0x" ++ fmt_0x 8 value)%string ;; sret value
  else slift (int_base0 arg).
(** __main__.py:559-580 *)
Definition convert_value (arg : string) : act Z :=
  let arg := str_filter (fun c => negb (Ascii.eqb c "_")) (lower arg) in
  match chars arg with
  | [] => sfail (Raised IndexError)
  | c :: _ =>
    let deref := Ascii.eqb c "[" in
    do* '(arg, offset) := (if deref then bracket_parts arg else sret (arg, 0)) in
    do* value := register_or_int arg in
    if deref then
      do* data := block (value + offset) 4 in
      do* value := slift (bytes_to_le32 data 0) in
      print ("[" ++ arg ++ "," ++ fmt_d offset ++ "] = 0x" ++ fmt_0x 8 value)%string ;;
      sret value
    else sret value
  end.

(** __main__.py:140-162; [first] is true when the address of the row is still to be
    printed (line 143).  The caller passes 8, 16 or 32. *)
Fixpoint dump_items (width start i : Z) (first : bool) (data : list Z) : act unit :=
  match data with
  | [] => if first then sret tt else print_end
  | d :: data' =>
    (if first then print_comma (fmt_0x 8 (start + i) ++ ": ")%string else sret tt) ;;
    let i := i + 1 in
    (if width =? 8 then print_comma (fmt_0x 2 d) ;; if i mod 4 =? 0 then print_comma "" else sret tt
     else if width =? 16 then print_comma (fmt_0x 4 d)
     else print_comma (fmt_0x 8 d)) ;;
    if i mod (if width =? 8 then 16 else if width =? 16 then 8 else 4) =? 0
    then print_end ;; dump_items width start i true data'
    else dump_items width start i false data'
  end.
Definition dumpHexData (data : list Z) (startAddress width : Z) : act unit :=
  dump_items width startAddress 0 true data.

(** __main__.py:437-444, 455-476 *)
Definition do_read (args : list string) (width : Z) : act unit :=
  match args with
  | [] => print "Error: no address specified"
  | a :: rest =>
    do* addr := convert_value a in
    do* count := match rest with [] => sret (width / 8) | n :: _ => convert_value n end in
    do* bytes := block addr count in
    do* data := (if width =? 8 then sret bytes
                 else if width =? 16 then slift (byteListToU16leList bytes)
                 else slift (byteListToU32leList Py2 bytes)) in
    dumpHexData data addr width
  end.

(** [bytearray(self.convert_value(d) for d in args)]: the values are converted one after
    the other, and each has to be a byte *)
Fixpoint byte_args (args : list string) : act (list Z) :=
  match args with
  | [] => sret []
  | d :: args' =>
    do* v := convert_value d in
    if byte_ok v then do* vs := byte_args args' in sret (v :: vs) else sfail (Raised ValueError)
  end.

(** __main__.py:446-453, 478-496 *)
Definition do_write (args : list string) (width : Z) : act unit :=
  match args with
  | [] => print "Error: no address specified"
  | a :: rest =>
    do* addr := convert_value a in
    match rest with
    | [] => print "Error: no data for write"
    | _ =>
      do* data := byte_args rest in
      let data := if width =? 8 then data
                  else if width =? 16 then u16leListToByteList data
                  else u32leListToByteList data in
      do* c := the_cpu in
      do* c' := slift (write_memory_block c addr data) in
      set_cpu c'
    end
  end.

(** The instructions [disasm] gives for [data], and how it ended. *)
Definition disassemble (data : list Z) (addr : Z) : act (list insn * res unit) := fun s =>
  let '(t, l, r) := disasm Py2 (sim_tree s) data addr in
  (mksim (sim_cpu s) t (sim_out s) (sim_soft s), Done (l, r)).

(** __main__.py:498-520.  The list comprehension of line 506 exhausts the generator, so an
    exception while a later instruction is decoded comes before the first is executed.
    [execute] does not raise UndefinedInstructionError. *)
Definition handle_step (args : list string) : act unit :=
  do* c := the_cpu in
  do* r := slift (read_register c (RName "pc")) in
  let pc := Z.land (bs_unsigned r) (Z.lnot 1) in
  do* code := block pc 4 in
  do* '(ilist, r) := disassemble code pc in
  match r with
  | Err UndefinedInstructionError => print "Undefined instruction"
  | Err e => sfail (Raised e)
  | Ok _ =>
    match ilist with
    | [] => print "No instructions found!"
    | i :: _ =>
      do* '(i, _, text) := slift (format (mkfmt None []) i) in
      print (fmt_addr (i_address i) ++ ":  " ++ text)%string ;;
      let '(s, r) := execute Py2 c i in
      set_cpu (s_cpu s) ;; slift r
    end
  end.

(** __main__.py:607-628.  [fmt.format] does not raise on decoded instructions, so it makes
    no difference that the model formats after the last instruction has been decoded. *)
Fixpoint disasm_lines (pc : Z) (f : formatter) (l : list insn) : res string :=
  match l with
  | [] => Ok EmptyString
  | i :: l' =>
    let* '(_, f', t) := format f i in
    let* rest := disasm_lines pc f' l' in
    Ok (fmt_addr (i_address i) ++ ":" ++ (if (pc =? i_address i)%Z then "*" else " ") ++ " " ++ t
        ++ newline ++ rest)%string
  end.
Definition print_disasm (code : list Z) (startAddr : Z) : act unit :=
  do* c := the_cpu in
  do* r := slift (read_register c (RName "pc")) in
  let pc := Z.land (bs_unsigned r) (Z.lnot 1) in
  do* '(l, r) := disassemble code startAddr in
  do* text := slift (disasm_lines pc (mkfmt None []) l) in
  match r with
  | Err UndefinedInstructionError => print "Undefined instruction"
  | Err e => sfail (Raised e)
  | Ok _ => sret tt
  end ;;
  match last_char text with
  | None => sfail (Raised IndexError)
  | Some c => print (if Ascii.eqb c "010" then of_chars (removelast (chars text)) else text)
  end.

(** optparse with the single option [-c/--center] (__main__.py:170-179, 417): the flag and
    the positional arguments; anything else that starts with a dash ends the program. *)
Fixpoint is_prefix (a b : list ascii) : bool :=
  match a, b with
  | [], _ => true
  | x :: a', y :: b' => (Ascii.eqb x y && is_prefix a' b')%bool
  | _, _ => false
  end.
Inductive argkind := Positional | Center | Separator | BadOption.
Definition arg_kind (s : string) : argkind :=
  match chars s with
  | "-"%char :: "-"%char :: [] => Separator
  | "-"%char :: "-"%char :: l => if is_prefix l (chars "center") then Center else BadOption
  | "-"%char :: c :: l => if forallb (fun a => Ascii.eqb a "c") (c :: l) then Center else BadOption
  | _ => Positional
  end.
Fixpoint parse_args (args : list string) : option (bool * list string) :=
  match args with
  | [] => Some (false, [])
  | a :: rest =>
    match arg_kind a with
    | Separator => Some (false, rest)
    | BadOption => None
    | Center => option_map (fun '(_, l) => (true, l)) (parse_args rest)
    | Positional => option_map (fun '(c, l) => (c, a :: l)) (parse_args rest)
    end
  end.

(** __main__.py:417-435 *)
Definition handle_disasm (args : list string) : act unit :=
  match parse_args args with
  | None => sfail SysExit
  | Some (center, other) =>
    let other := match other with [] => ["pc"%string] | _ => other end in
    do* addr := convert_value (List.nth 0 other "pc"%string) in
    do* count := match other with _ :: n :: _ => convert_value n | _ => sret 6 end in
    let addr := if center then addr - count / 2 else addr in
    let addr := Z.land addr (Z.lnot 1) in
    do* c := the_cpu in
    match read_memory_block c addr count with
    | Some data => print_disasm data addr
    | None => sfail (Raised TypeError)
    end
  end.

(** __main__.py:582-599 *)
Definition dump_rows : list (list string) :=
  [["r0"; "r6"; "r12"; "xpsr"]; ["r1"; "r7"; "sp"; "control"]; ["r2"; "r8"; "lr"; "primask"];
   ["r3"; "r9"; "pc"; "faultmask"]; ["r4"; "r10"; "msp"; "basepri"]; ["r5"; "r11"; "psp"]]%string.
Fixpoint dump_row (colnum : Z) (row : list string) : act unit :=
  match row with
  | [] => print_end
  | reg :: row' =>
    do* c := the_cpu in
    do* v := slift (read_register c (RName reg)) in
    print_comma (pad_left (if (colnum =? 3)%Z then 10 else 4) (reg ++ ":") ++ " " ++ fmt_addr (bs_unsigned v) ++ " ")%string ;;
    dump_row (colnum + 1) row'
  end.
Definition dump_registers : act unit := fold_right (fun row k => dump_row 0 row ;; k) (sret tt) dump_rows.

(** __main__.py:391-402 *)
Definition handle_reg (args : list string) : act unit :=
  match args with
  | [] => dump_registers
  | a :: _ =>
    let reg := lower a in
    if is_register reg then
      do* c := the_cpu in
      do* v := slift (read_register c (RName reg)) in
      print (reg ++ " = 0x" ++ fmt_0x 8 (bs_unsigned v) ++ " (" ++ fmt_d (bs_unsigned v) ++ ")")%string
    else sfail (Tool ("invalid register '" ++ reg ++ "'")%string)
  end.

(** __main__.py:404-412 *)
Definition handle_write_reg (args : list string) : act unit :=
  match args with
  | [] => sfail (Tool "No register specified")
  | [_] => sfail (Tool "No value specified")
  | a :: v :: _ =>
    let reg := lower a in
    do* value := convert_value v in
    do* c := the_cpu in
    set_cpu (write_register c (RName reg) (NInt value))
  end.

(** __main__.py:525-532, 38-44 *)
Definition LEVELS : list string := ["debug"; "info"; "warning"; "error"; "critical"]%string.
Definition handle_log (args : list string) : act unit :=
  match args with
  | [] => print "Error: no log level provided"
  | a :: _ =>
    if existsb (String.eqb (lower a)) LEVELS then sret tt
    else print_item LevelError ;; print_end
  end.

(** __main__.py:320-334: a fresh machine with the binary in it *)
Definition create_sim (binary : list Z) : res cpu :=
  let* c := add_memory cpu_new 0 (Z.max 65536 (Z.of_nat (List.length binary))) in
  let* c := write_memory_block c 0 binary in
  let* w := read32 c (NInt 0) in
  let sp := bs_unsigned w in
  let ramsize := if negb (sp =? 0) then Z.max (sp - 536838144) 65536 else 65536 in
  add_memory c 536838144 ramsize.

(** __main__.py:336-347 *)
Definition reset_sim : act unit :=
  do* c := the_cpu in
  do* pc := slift (read32 c (NInt 4)) in
  (match find_mem c (bs_unsigned pc) with Some _ => set_cpu (set_pc c (NBits pc)) | None => sret tt end) ;;
  do* c := the_cpu in
  do* sp := slift (read32 c (NInt 0)) in
  (match find_mem c (bs_unsigned sp - 4) with Some _ => set_cpu (set_sp c (NBits sp)) | None => sret tt end) ;;
  print ("CPU model reset." ++ newline ++ "PC = 0x" ++ fmt_0x 8 (bs_unsigned pc) ++ newline
         ++ "SP = 0x" ++ fmt_0x 8 (bs_unsigned sp))%string.

(** ** Commands *)

(** __main__.py:271-305, with the methods they are bound to *)
Inductive handler :=
  HInfo | HReg | HWriteReg | HReset | HRead (w : Z) | HWrite (w : Z) | HStep | HDisasm | HMap | HLog | HExit.
Definition command_list : list (string * handler) :=
  [("info", HInfo); ("i", HInfo); ("reg", HReg); ("wreg", HWriteReg); ("reset", HReset);
   ("read", HRead 8); ("read8", HRead 8); ("read16", HRead 16); ("read32", HRead 32);
   ("r", HRead 8); ("rb", HRead 8); ("r16", HRead 16); ("rh", HRead 16); ("r32", HRead 32); ("rw", HRead 32);
   ("write", HWrite 8); ("write8", HWrite 8); ("write16", HWrite 16); ("write32", HWrite 32);
   ("w", HWrite 8); ("wb", HWrite 8); ("w16", HWrite 16); ("wh", HWrite 16); ("w32", HWrite 32); ("ww", HWrite 32);
   ("step", HStep); ("s", HStep); ("disasm", HDisasm); ("d", HDisasm); ("map", HMap); ("log", HLog);
   ("exit", HExit); ("quit", HExit)]%string.

(** [handler(args)]; [handle_reset] takes one argument more than it is given *)
Definition run_handler (h : handler) (args : list string) : act unit :=
  match h with
  | HInfo => print ""
  | HReg => handle_reg args
  | HWriteReg => handle_write_reg args
  | HReset => sfail (Raised TypeError)
  | HRead w => do_read args w
  | HWrite w => do_write args w
  | HStep => handle_step args
  | HDisasm => handle_disasm args
  | HMap => sret tt
  | HLog => handle_log args
  | HExit => sfail ToolExit
  end.

(** __main__.py:47-128: names, aliases, arguments and help texts *)
Definition COMMAND_INFO : list (string * (list string * string * string)) :=
  [("info", (["i"], "", "Display target type and IDs"));
   ("status", (["stat"], "", "Show the target's current state"));
   ("reg", ([], "[REG]", "Print all or one register"));
   ("wreg", ([], "REG VALUE", "Set the value of a register"));
   ("reset", ([], "[-h/--halt]", "Reset the target"));
   ("read8", (["read"; "r"; "rb"], "ADDR [LEN]", "Read 8-bit bytes"));
   ("read16", (["r16"; "rh"], "ADDR [LEN]", "Read 16-bit halfwords"));
   ("read32", (["r32"; "rw"], "ADDR [LEN]", "Read 32-bit words"));
   ("write8", (["write"; "w"; "wb"], "ADDR DATA...", "Write 8-bit bytes"));
   ("write16", (["w16"; "wh"], "ADDR DATA...", "Write 16-bit halfwords"));
   ("write32", (["w32"; "ww"], "ADDR DATA...", "Write 32-bit words"));
   ("step", (["s"], "", "Step one instruction"));
   ("help", (["?"], "[CMD]", "Show help for commands"));
   ("disasm", (["d"], "[-c/--center] ADDR [LEN]", "Disassemble instructions at an address"));
   ("log", ([], "LEVEL", "Set log level to one of debug, info, warning, error, critical"));
   ("exit", (["quit"], "", "Quit the simulator"))]%string.

(** [sorted] on strings *)
Fixpoint str_insert {A} (key : A -> string) (x : A) (l : list A) : list A :=
  match l with
  | [] => [x]
  | y :: l' => if String.ltb (key y) (key x) then y :: str_insert key x l' else x :: l
  end.
Definition str_sort {A} (key : A -> string) (l : list A) : list A := fold_right (str_insert key) [] l.

(** __main__.py:255-265 *)
Definition help_line (e : string * (list string * string * string)) : string :=
  let '(cmd, (aliases, args, help)) := e in
  (pad_right 25 (join ", " (str_sort (fun s => s) (cmd :: aliases))) ++ " " ++ pad_right 20 args ++ " " ++ help)%string.
Definition list_commands : act unit :=
  print ("Commands:" ++ newline ++ "---------")%string ;;
  fold_right (fun e k => print (help_line e) ;; k) (sret tt) (str_sort fst COMMAND_INFO) ;;
  print_end ;;
  print "All register names are also available as commands that print the register's value." ;;
  print "Any ADDR or LEN argument will accept a register name.".

(** __main__.py:213-239, inside the [try] *)
Definition dispatch (cmd : string) : act unit :=
  match chars (strip cmd) with
  | [] => sfail (Raised IndexError)
  | "$"%char :: _ => sfail (Eval (strip (of_chars (List.tl (chars cmd)))))
  | _ =>
    match words cmd with
    | [] => sfail (Raised IndexError)
    | w :: args =>
      let cmd := lower w in
      if existsb (String.eqb cmd) ["?"; "help"]%string then
        match args with [] => list_commands | _ => sret tt end
      else if is_register cmd then handle_reg [cmd]
      else match dict_get String.eqb cmd command_list with
           | None => print ("Error: unrecognized command '" ++ cmd ++ "'")%string
           | Some h => run_handler h args
           end
    end
  end.

(** __main__.py:211-249: the exception handlers.  SystemExit is not an Exception. *)
Definition process_command (cmd : string) : act unit := fun s =>
  match dispatch cmd s with
  | (s', Done _) => (s', Done tt)
  | (s', Fail (Raised ValueError)) => print "Error: invalid argument" s'
  | (s', Fail (Raised e)) => (print_comma "Unexpected exception:" ;; print_item (ErrText e) ;; print_end) s'
  | (s', Fail (Tool m)) => (print_comma "Error:" ;; print m) s'
  | (s', Fail e) => (s', Fail e)
  end.

(** __main__.py:207-209 *)
Definition process_command_line (line : string) : act unit :=
  fold_right (fun cmd k => process_command cmd ;; k) (sret tt) (split ";" line).

(** __main__.py:188-205, for the lines typed before the end of input *)
Fixpoint console_run (last_command : string) (lines : list string) : act unit :=
  match lines with
  | [] => print_end
  | line :: rest =>
    let line := strip line in
    if negb (String.eqb line "") then process_command_line line ;; console_run line rest
    else if negb (String.eqb last_command "") then process_command last_command ;; console_run last_command rest
    else console_run last_command rest
  end.

(** __main__.py:355-372: from the contents of the binary file on *)
Definition sim_start (t : dtree hid) (binary : list Z) : sim * sres unit :=
  match create_sim binary with
  | Ok c => reset_sim (mksim c t [] false)
  | Err e => (mksim cpu_new t [] false, Fail (Raised e))
  end.
Definition sim_main (t : dtree hid) (binary : list Z) (lines : list string) : sim * sres unit :=
  match sim_start t binary with
  | (s, Done _) => console_run "" lines s
  | r => r
  end.
