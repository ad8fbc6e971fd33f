(** * Model of /repo/cmdis/__main__.py: the program as a whole

    [SimModel.v] stops at a command that starts with a dollar sign and does not say how the
    program ends.  Here such commands are run by an arbitrary evaluator, the input can have
    Ctrl-C in it, and the program ends with an exit status.  The command line is in
    [ArgsModel.v].  Not modelled: logging, and Ctrl-C while a command runs that is not an
    expression. *)
From Verif Require Export SimModel.
Local Open Scope Z_scope.

(** ["%0*x" % (w, z)] for any int: the sign counts for the width *)
Definition fmt_0x_int (w z : Z) : string := if z <? 0 then String "-" (fmt_0x (w - 1) (- z)) else fmt_0x w z.

(** __main__.py:130-138, which nothing calls; the name [reg] in the last line is not defined *)
Definition hex_width (value width : Z) : res string :=
  if width =? 8 then Ok (fmt_0x_int 2 value)
  else if width =? 16 then Ok (fmt_0x_int 4 value)
  else if width =? 32 then Ok (fmt_0x_int 8 value)
  else Err NameError.

(** What [eval] of an expression can give: None, an int, another object (its [str]), an
    exception, SystemExit (with the status the interpreter makes of its argument) or
    KeyboardInterrupt (Ctrl-C while it is evaluated).  It can change the machine. *)
Inductive evaluated :=
  EvNone | EvInt (z : Z) | EvOther (text : string) | EvRaise (e : exc) | EvExit (code : Z) | EvInterrupt.
Definition evaluator := string -> cpu -> cpu * evaluated.

(** __main__.py:537-551 *)
Definition handle_python (ev : evaluator) (args : string) : act unit :=
  do* c := the_cpu in
  let '(c', result) := ev args c in
  set_cpu c' ;;
  match result with
  | EvNone => sret tt
  | EvInt z => print ("0x" ++ fmt_0x_int 8 z ++ " (" ++ fmt_d z ++ ")")%string
  | EvOther text => print text
  | EvRaise e => print_comma "Exception while executing expression:" ;; print_item (ErrText e) ;; print_end
  | EvExit code => sfail (Quit code)
  | EvInterrupt => sfail Interrupt
  end.

(** __main__.py:211-249; what [handle_python] raises is not an Exception *)
Definition process_py (ev : evaluator) (cmd : string) : act unit := fun s =>
  match process_command cmd s with
  | (s', Fail (Eval e)) => handle_python ev e s'
  | r => r
  end.
(** __main__.py:207-209 *)
Definition process_line_py (ev : evaluator) (line : string) : act unit :=
  fold_right (fun cmd k => process_py ev cmd ;; k) (sret tt) (split ";" line).

(** __main__.py:199-200: [m] and then [k]; after a KeyboardInterrupt in [m] an empty line and [k'] *)
Definition interruptible (m k k' : act unit) : act unit := fun s =>
  match m s with
  | (s', Done _) => k s'
  | (s', Fail Interrupt) => (print_end ;; k') s'
  | (s', Fail e) => (s', Fail e)
  end.

(** __main__.py:188-205: what is typed at the prompt; a line is remembered after it has been
    processed *)
Inductive input := Line (s : string) | CtrlC.
Fixpoint console_py (ev : evaluator) (last_command : string) (lines : list input) : act unit :=
  match lines with
  | [] => print_end
  | CtrlC :: rest => print_end ;; console_py ev last_command rest
  | Line line :: rest =>
    let line := strip line in
    if negb (String.eqb line "") then interruptible (process_line_py ev line) (console_py ev line rest) (console_py ev last_command rest)
    else if negb (String.eqb last_command "")
    then interruptible (process_py ev last_command) (console_py ev last_command rest) (console_py ev last_command rest)
    else console_py ev last_command rest
  end.

(** __main__.py:349-386, 631: what follows the reading of the arguments and of the file, with
    [k] for the console, and the exit status; optparse exits with 2 *)
Inductive status := Exit (code : Z) | Uncaught (e : sexc).
Definition tool_run (k : act unit) (t : dtree hid) (binary : list Z) : sim * status :=
  let '(s, r) :=
    match create_sim binary with
    | Ok c => (reset_sim ;; k) (mksim c t [] false)
    | Err e => (mksim cpu_new t [] false, Fail (Raised e))
    end in
  match r with
  | Done _ | Fail ToolExit => (s, Exit 0)
  | Fail (Raised ValueError) => (fst (print "Error: invalid argument" s), Exit 0)
  | Fail (Tool m) => (fst ((print_comma "Error:" ;; print m) s), Exit 1)
  | Fail SysExit => (s, Exit 2)
  | Fail (Quit code) => (s, Exit code)
  | Fail e => (s, Uncaught e)
  end.
Definition program (ev : evaluator) (t : dtree hid) (binary : list Z) (lines : list input) : sim * status :=
  tool_run (console_py ev "" lines) t binary.
