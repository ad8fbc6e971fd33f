(** * Model of /repo/cmdis/__main__.py: standard error and the log level

    [SimModel.v] and [ProgramModel.v] have what goes to standard output.  Here the same
    program runs with a log level and writes to standard error: what registers.py logs,
    tracebacks, and what the two parsers of options print.  Everything that looks up a register by
    name is written again, with the lookup that logs; the rest is taken from those
    files by [quietly].  Texts of tracebacks, of usage and of the version are not modelled. *)
From Verif Require Export ArgsModel.
Local Open Scope Z_scope.

(** A piece of standard error. *)
Inductive note := LogLine (text : string) | Trace (e : sexc) | UsageText | VersionText.

(** The console, the level of the root logger, and standard error. *)
Record world := mkworld { w_sim : sim; w_level : Z; w_err : list note }.
Definition wact (A : Type) := world -> world * sres A.
Definition wret {A} (a : A) : wact A := fun w => (w, Done a).
Definition wbind {A B} (m : wact A) (k : A -> wact B) : wact B :=
  fun w => match m w with (w', Done a) => k a w' | (w', Fail e) => (w', Fail e) end.
Notation "'then*' x := m 'in' k" := (wbind m (fun x => k)) (at level 200, x name, m at level 100, k at level 200).
Notation "'then*' ' x := m 'in' k" := (wbind m (fun x => k)) (at level 200, x strict pattern, m at level 100, k at level 200).
Notation "m ;;; k" := (wbind m (fun _ => k)) (at level 100, k at level 200, right associativity).
Definition quietly {A} (m : act A) : wact A :=
  fun w => let '(s, r) := m (w_sim w) in (mkworld s (w_level w) (w_err w), r).
Definition write_note (n : note) : wact unit :=
  fun w => (mkworld (w_sim w) (w_level w) (w_err w ++ [n]), Done tt).

(** __main__.py:38-44, with the numbers of the logging module *)
Definition LEVEL_NUMBERS : list (string * Z) :=
  [("debug", 10); ("info", 20); ("warning", 30); ("error", 40); ("critical", 50)]%string.
(** [logging.getLogger().setLevel(level)] *)
Definition set_level (level : Z) : wact unit := fun w => (mkworld (w_sim w) level (w_err w), Done tt).
(** [logging.error(text)]: ERROR is 40; the format is that of [basicConfig] *)
Definition log_error (text : string) : wact unit := fun w =>
  if w_level w <=? 40 then write_note (LogLine ("ERROR:root:" ++ text)%string) w else (w, Done tt).

(** ** Registers by name *)

(** registers.py:92-99 *)
Definition find_register (reg : regref) : wact (option Z) :=
  match reg with
  | RName s =>
    match dict_get String.eqb (lower s) CORE_REGISTER with
    | Some i => wret (Some i)
    | None => log_error ("cannot find " ++ s ++ " core register")%string ;;; wret None
    end
  | RIndex i => wret (Some i)
  end.
(** model.py:225-228 *)
Definition read_register_err (reg : regref) : wact bs :=
  then* k := find_register reg in
  quietly (do* c := the_cpu in slift (let* v := mock_read_register c k in bs_init (VInt v) None)).
(** model.py:230-235 *)
Definition write_register_err (reg : regref) (value : num) : wact unit :=
  then* k := find_register reg in
  quietly (do* c := the_cpu in set_cpu (mock_write_register c k (num_val value))).

(** ** Commands *)

(** __main__.py:570-574 *)
Definition register_or_int_err (arg : string) : wact Z :=
  if is_register arg then
    then* v := read_register_err (RName arg) in
    let value := bs_unsigned v in
    quietly (print (arg ++ " = 0x" ++ fmt_0x 8 value)%string) ;;; wret value
  else quietly (slift (int_base0 arg)).
(** __main__.py:559-580 *)
Definition convert_value_err (arg : string) : wact Z :=
  let arg := str_filter (fun c => negb (Ascii.eqb c "_")) (lower arg) in
  match chars arg with
  | [] => quietly (sfail (Raised IndexError))
  | c :: _ =>
    let deref := Ascii.eqb c "[" in
    then* '(arg, offset) := quietly (if deref then bracket_parts arg else sret (arg, 0)) in
    then* value := register_or_int_err arg in
    if deref then
      quietly (do* data := block (value + offset) 4 in
               do* value := slift (bytes_to_le32 data 0) in
               print ("[" ++ arg ++ "," ++ fmt_d offset ++ "] = 0x" ++ fmt_0x 8 value)%string ;;
               sret value)
    else wret value
  end.

(** __main__.py:437-444, 455-476 *)
Definition do_read_err (args : list string) (width : Z) : wact unit :=
  match args with
  | [] => quietly (print "Error: no address specified")
  | a :: rest =>
    then* addr := convert_value_err a in
    then* count := match rest with [] => wret (width / 8) | n :: _ => convert_value_err n end in
    quietly (
      do* bytes := block addr count in
      do* data := (if width =? 8 then sret bytes
                   else if width =? 16 then slift (byteListToU16leList bytes)
                   else slift (byteListToU32leList Py2 bytes)) in
      dumpHexData data addr width)
  end.
(** The values of the arguments; see [byte_args] *)
Fixpoint byte_args_err (args : list string) : wact (list Z) :=
  match args with
  | [] => wret []
  | d :: args' =>
    then* v := convert_value_err d in
    if byte_ok v then then* vs := byte_args_err args' in wret (v :: vs) else quietly (sfail (Raised ValueError))
  end.
(** __main__.py:446-453, 478-496 *)
Definition do_write_err (args : list string) (width : Z) : wact unit :=
  match args with
  | [] => quietly (print "Error: no address specified")
  | a :: rest =>
    then* addr := convert_value_err a in
    match rest with
    | [] => quietly (print "Error: no data for write")
    | _ =>
      then* data := byte_args_err rest in
      quietly (
        let data := if width =? 8 then data
                    else if width =? 16 then u16leListToByteList data
                    else u32leListToByteList data in
        do* c := the_cpu in
        do* c' := slift (write_memory_block c addr data) in
        set_cpu c')
    end
  end.

(** __main__.py:498-520 *)
Definition handle_step_err (args : list string) : wact unit :=
  then* c := quietly the_cpu in
  then* r := read_register_err (RName "pc") in
  quietly (
    let pc := Z.land (bs_unsigned r) (Z.lnot 1) in
    do* code := block pc 4 in
    do* '(ilist, r) := disassemble code pc in
    match r with
    | Err UndefinedInstructionError => print "Undefined instruction"
    | Err e => sfail (Raised e)
    | Ok _ =>
      match ilist with
      | [] => print "No instructions found!"
      | i :: _ =>
        do* '(i, _, text) := slift (format (mkfmt None []) i) in
        print (fmt_addr (i_address i) ++ ":  " ++ text)%string ;;
        let '(s, r) := execute Py2 c i in
        set_cpu (s_cpu s) ;; slift r
      end
    end).

(** __main__.py:607-628 *)
Definition print_disasm_err (code : list Z) (startAddr : Z) : wact unit :=
  then* r := read_register_err (RName "pc") in
  quietly (
    let pc := Z.land (bs_unsigned r) (Z.lnot 1) in
    do* '(l, r) := disassemble code startAddr in
    do* text := slift (disasm_lines pc (mkfmt None []) l) in
    match r with
    | Err UndefinedInstructionError => print "Undefined instruction"
    | Err e => sfail (Raised e)
    | Ok _ => sret tt
    end ;;
    match last_char text with
    | None => sfail (Raised IndexError)
    | Some c => print (if Ascii.eqb c "010" then of_chars (removelast (chars text)) else text)
    end).
(** __main__.py:417-435; optparse writes the usage and the error, and exits *)
Definition handle_disasm_err (args : list string) : wact unit :=
  match parse_args args with
  | None => write_note UsageText ;;; quietly (sfail SysExit)
  | Some (center, other) =>
    let other := match other with [] => ["pc"%string] | _ => other end in
    then* addr := convert_value_err (List.nth 0 other "pc"%string) in
    then* count := match other with _ :: n :: _ => convert_value_err n | _ => wret 6 end in
    let addr := if center then addr - count / 2 else addr in
    let addr := Z.land addr (Z.lnot 1) in
    then* c := quietly the_cpu in
    match read_memory_block c addr count with
    | Some data => print_disasm_err data addr
    | None => quietly (sfail (Raised TypeError))
    end
  end.

(** __main__.py:582-599 *)
Fixpoint dump_row_err (colnum : Z) (row : list string) : wact unit :=
  match row with
  | [] => quietly print_end
  | reg :: row' =>
    then* v := read_register_err (RName reg) in
    quietly (print_comma (pad_left (if (colnum =? 3)%Z then 10 else 4) (reg ++ ":") ++ " " ++ fmt_addr (bs_unsigned v) ++ " ")%string) ;;;
    dump_row_err (colnum + 1) row'
  end.
Definition dump_registers_err : wact unit := fold_right (fun row k => dump_row_err 0 row ;;; k) (wret tt) dump_rows.
(** __main__.py:391-402 *)
Definition handle_reg_err (args : list string) : wact unit :=
  match args with
  | [] => dump_registers_err
  | a :: _ =>
    let reg := lower a in
    if is_register reg then
      then* v := read_register_err (RName reg) in
      quietly (print (reg ++ " = 0x" ++ fmt_0x 8 (bs_unsigned v) ++ " (" ++ fmt_d (bs_unsigned v) ++ ")")%string)
    else quietly (sfail (Tool ("invalid register '" ++ reg ++ "'")%string))
  end.
(** __main__.py:404-412 *)
Definition handle_write_reg_err (args : list string) : wact unit :=
  match args with
  | [] => quietly (sfail (Tool "No register specified"))
  | [_] => quietly (sfail (Tool "No value specified"))
  | a :: v :: _ =>
    let reg := lower a in
    then* value := convert_value_err v in
    write_register_err (RName reg) (NInt value)
  end.
(** __main__.py:525-532 *)
Definition handle_log_err (args : list string) : wact unit :=
  match args with
  | [] => quietly (print "Error: no log level provided")
  | a :: _ =>
    match dict_get String.eqb (lower a) LEVEL_NUMBERS with
    | Some level => set_level level
    | None => quietly (print_item LevelError ;; print_end)
    end
  end.

Definition run_handler_err (h : handler) (args : list string) : wact unit :=
  match h with
  | HReg => handle_reg_err args
  | HWriteReg => handle_write_reg_err args
  | HRead w => do_read_err args w
  | HWrite w => do_write_err args w
  | HStep => handle_step_err args
  | HDisasm => handle_disasm_err args
  | HLog => handle_log_err args
  | HInfo | HReset | HMap | HExit => quietly (run_handler h args)
  end.

(** __main__.py:213-239 *)
Definition dispatch_err (cmd : string) : wact unit :=
  match chars (strip cmd) with
  | [] => quietly (sfail (Raised IndexError))
  | "$"%char :: _ => quietly (sfail (Eval (strip (of_chars (List.tl (chars cmd))))))
  | _ =>
    match words cmd with
    | [] => quietly (sfail (Raised IndexError))
    | w :: args =>
      let cmd := lower w in
      if existsb (String.eqb cmd) ["?"; "help"]%string then
        match args with [] => quietly list_commands | _ => wret tt end
      else if is_register cmd then handle_reg_err [cmd]
      else match dict_get String.eqb cmd command_list with
           | None => quietly (print ("Error: unrecognized command '" ++ cmd ++ "'")%string)
           | Some h => run_handler_err h args
           end
    end
  end.

(** What [eval] does besides what [evaluator] says: the level afterwards, and what it
    writes to standard error. *)
Definition side_effect := string -> cpu -> Z -> Z * list note.
Definition side_err (sd : side_effect) (args : string) : wact unit := fun w =>
  let '(level, notes) := sd args (sim_cpu (w_sim w)) (w_level w) in
  (mkworld (w_sim w) level (w_err w ++ notes), Done tt).
(** __main__.py:537-551 *)
Definition handle_python_err (ev : evaluator) (sd : side_effect) (args : string) : wact unit :=
  then* c := quietly the_cpu in
  side_err sd args ;;;
  quietly (handle_python ev args) ;;;
  match snd (ev args c) with
  | EvRaise e => write_note (Trace (Raised e))
  | _ => wret tt
  end.

(** __main__.py:211-249: [traceback.print_exc()] after the line on standard output *)
Definition process_err (ev : evaluator) (sd : side_effect) (cmd : string) : wact unit := fun w =>
  match dispatch_err cmd w with
  | (w', Done _) => (w', Done tt)
  | (w', Fail (Eval e)) => handle_python_err ev sd e w'
  | (w', Fail (Raised ValueError)) => (quietly (print "Error: invalid argument") ;;; write_note (Trace (Raised ValueError))) w'
  | (w', Fail (Raised e)) =>
    (quietly (print_comma "Unexpected exception:" ;; print_item (ErrText e) ;; print_end) ;;; write_note (Trace (Raised e))) w'
  | (w', Fail (Tool m)) => quietly (print_comma "Error:" ;; print m) w'
  | (w', Fail e) => (w', Fail e)
  end.
(** __main__.py:207-209 *)
Definition process_line_err (ev : evaluator) (sd : side_effect) (line : string) : wact unit :=
  fold_right (fun cmd k => process_err ev sd cmd ;;; k) (wret tt) (split ";" line).

(** __main__.py:188-205 *)
Definition interruptible_err (m k k' : wact unit) : wact unit := fun w =>
  match m w with
  | (w', Done _) => k w'
  | (w', Fail Interrupt) => (quietly print_end ;;; k') w'
  | (w', Fail e) => (w', Fail e)
  end.
Fixpoint console_err (ev : evaluator) (sd : side_effect) (last_command : string) (lines : list input) : wact unit :=
  match lines with
  | [] => quietly print_end
  | CtrlC :: rest => quietly print_end ;;; console_err ev sd last_command rest
  | Line line :: rest =>
    let line := strip line in
    if negb (String.eqb line "")
    then interruptible_err (process_line_err ev sd line) (console_err ev sd line rest) (console_err ev sd last_command rest)
    else if negb (String.eqb last_command "")
    then interruptible_err (process_err ev sd last_command) (console_err ev sd last_command rest) (console_err ev sd last_command rest)
    else console_err ev sd last_command rest
  end.

(** __main__.py:349-386, 631; the interpreter writes the traceback of what is not caught *)
Definition tool_run_err (k : wact unit) (t : dtree hid) (binary : list Z) (level : Z) : world * status :=
  let '(w, r) :=
    match create_sim binary with
    | Ok c => (quietly reset_sim ;;; k) (mkworld (mksim c t [] false) level [])
    | Err e => (mkworld (mksim cpu_new t [] false) level [], Fail (Raised e))
    end in
  match r with
  | Done _ | Fail ToolExit => (w, Exit 0)
  | Fail (Raised ValueError) => (fst (quietly (print "Error: invalid argument") w), Exit 0)
  | Fail (Tool m) => (fst (quietly (print_comma "Error:" ;; print m) w), Exit 1)
  | Fail SysExit => (w, Exit 2)
  | Fail (Quit code) => (w, Exit code)
  | Fail e => (fst (write_note (Trace e) w), Uncaught e)
  end.

(** __main__.py:316-318: [LEVELS.get(self.args.debug_level, logging.WARNING)] *)
Definition configured (name : string) : Z :=
  match dict_get String.eqb name LEVEL_NUMBERS with Some level => level | None => 30 end.
(** The whole program: how it ends, and standard error.  argparse of Python 2.7 writes the
    help to standard output and the version, like errors, to standard error; Ctrl-C while the
    binary is read is not caught.  The console is not reached if the level is no key of the
    dictionary, or if the parser fails. *)
Definition main_err (ev : evaluator) (sd : side_effect) (t : dtree hid) (fs : string -> option (list Z)) (argv : list string) (lines : list input) : ended * list note :=
  let start k binary level :=
    match level with
    | Some name => let '(w, r) := tool_run_err k t binary (configured name) in (Ran (w_sim w) r, w_err w)
    | None => (Ran (mksim cpu_new t [] false) (Uncaught (Raised TypeError)), [Trace (Raised TypeError)])
    end in
  match get_args fs argv with
  | PArgs level None => start (console_err ev sd "" lines) [] level
  | PArgs level (Some (FromFile d)) => start (console_err ev sd "" lines) d level
  | PArgs level (Some FromStdin) =>
    match typed_bytes lines with
    | Some d => start (quietly (sfail (Raised ValueError))) d level
    | None => (Interrupted, [Trace Interrupt])
    end
  | PHelp => (Helped, [])
  | PVersion => (Versioned, [VersionText])
  | PUsage => (Misused, [UsageText])
  | PCrash e => (Ran (mksim cpu_new t [] false) (Uncaught (Raised e)), [Trace (Raised e)])
  end.
