(** Property statements; each is proved in StderrThms.v under the same name.
    Written by tools/genprops.py. *)
From Verif Require Import StderrModel SpecBits SpecCpu SpecFormat SpecDisasm SpecExec SpecIsa SpecSim SpecConsole SpecProg SpecArgs SpecErr StderrThms.
From Coq Require Import Lia.
Local Open Scope string_scope.
Local Open Scope list_scope.
Local Open Scope Z_scope.
Local Open Scope bool_scope.

(** C98: what a command other than an expression does with a log level and standard
error.  It does what it does without them, to the machine and to standard output.  Only log,
with the name of a level, changes the level.  Only wreg logs something: a name that no
register has, unless the level is critical.  A traceback follows if the command raised an
exception, and a disassembly command whose options are wrong writes the usage. *)
Theorem C98_stderr_command : forall ev sd cmd ws s level err, spells ws cmd -> not_python cmd ->
  process_err ev sd cmd (mkworld s level err) =
    (mkworld (fst (process_command cmd s)) (new_level ws level) (err ++ complaint ws level s ++ trouble (snd (dispatch cmd s))), snd (process_command cmd s)).
Proof. exact C98_stderr_command_proof. Qed.
Print Assumptions C98_stderr_command.

Example C98_stderr_command_ex : spells ["wreg"; "R99"; "5"] "wreg R99 5" /\ on_world 30 (fun w =>
  w_err (fst (process_err ex_eval ex_side "wreg R99 5" w)) = [LogLine "ERROR:root:cannot find r99 core register"] /\
  w_err (fst ((process_err ex_eval ex_side "log critical" ;;; process_err ex_eval ex_side "wreg r99 5") w)) = [] /\
  w_err (fst (process_err ex_eval ex_side "rb zz" w)) = [Trace (Raised ValueError)] /\
  w_err (fst (process_err ex_eval ex_side "d --x" w)) = [UsageText]).
Proof. split; [apply ConsoleThms.C71_words_proof; vm_compute; reflexivity|]. vm_compute. repeat split; reflexivity. Qed.

(** C98: an expression may change the level and write to standard error in any way; a
traceback follows if it raised an exception.  The rest is what it does without these.  As in
C81, the first character is dropped, which is a dollar sign if there is no white space in
front of it. *)
Theorem C98_stderr_python : forall ev sd c rest v args e s level err, spells (v :: args) (String c rest) -> starts "$" v -> trims rest e \/ blank rest /\ e = "" ->
  process_err ev sd (String c rest) (mkworld s level err) =
    (mkworld (fst (process_py ev (String c rest) s)) (fst (sd e (sim_cpu s) level)) (err ++ snd (sd e (sim_cpu s) level) ++ expr_trouble (snd (ev e (sim_cpu s)))),
     snd (process_py ev (String c rest) s)).
Proof. exact C98_stderr_python_proof. Qed.
Print Assumptions C98_stderr_python.

Example C98_stderr_python_ex : on_world 30 (fun w =>
  w_err (fst (process_err ex_eval ex_side "$ 6 * 7" w)) = [] /\ w_err (fst (process_err ex_eval ex_side "$x" w)) = [Trace (Raised NameError)] /\
  w_err (fst ((process_err ex_eval (fun t c l => (50, [LogLine t])) "$x" ;;; process_err ex_eval ex_side "wreg r99 5") w)) = [LogLine "x"; Trace (Raised NameError)]).
Proof. vm_compute. repeat split; reflexivity. Qed.

(** C98: the console with a log level and standard error treats lines as without them
(C81_lines). *)
Theorem C98_stderr_lines : forall ev sd last rest w,
  console_err ev sd last [] w = quietly print_end w /\
  console_err ev sd last (CtrlC :: rest) w = (quietly print_end ;;; console_err ev sd last rest) w /\
  (forall line r cs, trims line r -> commands cs r ->
     console_err ev sd last (Line line :: rest) w =
       match in_order_err ev sd cs w with
       | (w', Done _) => console_err ev sd r rest w'
       | (w', Fail Interrupt) => (quietly print_end ;;; console_err ev sd last rest) w'
       | (w', Fail e) => (w', Fail e)
       end) /\
  (forall line, blank line -> console_err ev sd last (Line line :: rest) w =
     if String.eqb last "" then console_err ev sd last rest w else
       match process_err ev sd last w with
       | (w', Done _) => console_err ev sd last rest w'
       | (w', Fail Interrupt) => (quietly print_end ;;; console_err ev sd last rest) w'
       | (w', Fail e) => (w', Fail e)
       end).
Proof. exact C98_stderr_lines_proof. Qed.
Print Assumptions C98_stderr_lines.

Example C98_stderr_lines_ex : on_world 30 (fun w =>
  w_err (fst (console_err ex_eval ex_side "" [Line "wreg r99 5; log critical; wreg r98 1"; Line "log error"; Line "wreg r97 1"; Line ""; Line "$wait; wreg r96 1"] w)) =
  [LogLine (unknown_text "r99"); LogLine (unknown_text "r97"); LogLine (unknown_text "r97")]).
Proof. vm_compute. reflexivity. Qed.

(** C98: the log level and what goes to standard error make no difference to how the
program ends, to the machine and to standard output; this is the program of C81 and of the
statements above. *)
Theorem C98_stderr_same : forall ev sd t fs argv lines, fst (main_err ev sd t fs argv lines) = main ev t fs argv lines.
Proof. exact C98_stderr_same_proof. Qed.
Print Assumptions C98_stderr_same.

Example C98_stderr_same_ex : match DECODER_TREE with
  | Ok t => match main_err ex_eval ex_side t ex_files ["a.bin"] [Line "wreg r99 5"; Line "s"; Line "r0"] with
            | (Ran s (Exit 0), err) => reg (sim_cpu s) 0 = 1 /\ err = [LogLine (unknown_text "r99")]
            | _ => False
            end
  | Err _ => False
  end.
Proof. vm_compute. split; reflexivity. Qed.

(** C98: standard error of the simulator is that of its console (C98_stderr_lines), which
starts with the level asked for last, or with warning. *)
Theorem C98_stderr_run : forall ev sd t fs argv lines it level d, module_tree t -> bytes d -> command_line it argv -> level_asked (Some "warning") it = Some level ->
  ((slots it = [] \/ slots it = [None]) /\ d = []) \/ (exists name, slots it = [Some name] /\ name <> "-" /\ fs name = Some d) ->
  exists s n, sim_start t d = (s, Done tt) /\ level_value level = Some n /\
    snd (main_err ev sd t fs argv lines) = w_err (fst (console_err ev sd "" lines (mkworld s n []))).
Proof. exact C98_stderr_run_proof. Qed.
Print Assumptions C98_stderr_run.

Example C98_stderr_run_ex : command_line [Binary "a.bin"; SetLevel (Some "critical")] ["a.bin"; "-dcritical"] /\
  match DECODER_TREE with
  | Ok t => snd (main_err ex_eval ex_side t ex_files ["a.bin"; "-dcritical"] [Line "wreg r99 5"; Line "log info"; Line "wreg r98 5"]) = [LogLine (unknown_text "r98")]
  | Err _ => False
  end.
Proof.
  split; [|vm_compute; reflexivity].
  apply cl_file; [left; intros [r X]; discriminate|]. apply (cl_joined "critical"); [vm_compute; tauto| |constructor]. left. split; [reflexivity|]. split; [discriminate|]. intros [r X]. discriminate.
Qed.

(** C98: standard error when the console is not reached: the version and the words of the
parser of arguments go there, the help does not, and an exception that is not caught leaves its
traceback; nothing is written if the binary is standard input. *)
Theorem C98_stderr_ends : forall ev sd t fs argv lines, module_tree t -> (forall n d, fs n = Some d -> bytes d) ->
  let err := snd (main_err ev sd t fs argv lines) in
  match main ev t fs argv lines with
  | Helped => err = []
  | Versioned => err = [VersionText]
  | Misused => err = [UsageText]
  | Interrupted => err = [Trace Interrupt]
  | Ran _ (Uncaught e) => err = [Trace e]
  | Ran _ (Exit _) => forall it, command_line it argv -> slots it = [Some "-"] -> err = []
  end.
Proof. exact C98_stderr_ends_proof. Qed.
Print Assumptions C98_stderr_ends.

Example C98_stderr_ends_ex : forall t, map (fun a => snd (main_err ex_eval ex_side t ex_files a [Line "x"])) [["-h"]; ["--version"]; ["-x"]; ["-h="]; ["-d--"]] =
  [[]; [VersionText]; [UsageText]; [Trace (Raised IndexError)]; [Trace (Raised TypeError)]] /\
  snd (main_err ex_eval ex_side t ex_files ["-"] [CtrlC]) = [Trace Interrupt].
Proof. intros t. split; reflexivity. Qed.

(** C98: all that the program logs are names that no register has and that were given to
wreg, in small letters, if expressions do not log. *)
Theorem C98_stderr_log : forall ev sd t fs argv lines x, calm sd -> In (LogLine x) (snd (main_err ev sd t fs argv lines)) ->
  exists cmd w a v args, entered lines cmd /\ spells (w :: a :: v :: args) cmd /\ lower w = "wreg" /\ register_name_to_index (RName a) = None /\ x = unknown_text (lower a).
Proof. exact C98_stderr_log_proof. Qed.
Print Assumptions C98_stderr_log.

Example C98_stderr_log_ex : calm ex_side /\ entered [Line "x; wreg R99 5"] " wreg R99 5" /\ register_name_to_index (RName "R99") = None.
Proof.
  split; [intros e c l; split; [reflexivity|intros t []]|]. split; [|reflexivity]. exists "x; wreg R99 5", "x; wreg R99 5". split; [now left|].
  split; [|right; exists ["x"; " wreg R99 5"]; split; [|right; now left]].
  - exists "", "". split; [constructor|]. split; [constructor|]. split; [reflexivity|]. assert (D : forall c, is_ws c = false -> ~ space c) by (intros c W X; apply ConsoleThms.space_ws in X; congruence).
    split; [exists "x"%char, (chars "; wreg R99 5")|exists "5"%char, (chars "x; wreg R99 ")]; (split; [reflexivity|now apply D]).
  - apply (commands_cons "x" [" wreg R99 5"] " wreg R99 5"); [intros X; vm_compute in X; intuition discriminate|]. apply commands_last. intros X; vm_compute in X; intuition discriminate.
Qed.

(** C98: with the level critical and no command that sets another level, nothing is logged,
if expressions do not log. *)
Theorem C98_stderr_critical : forall ev sd t fs argv lines it f x, calm sd -> command_line it argv -> opens fs (slots it) f -> level_asked (Some "warning") it = Some "critical" ->
  (forall cmd ws, entered lines cmd -> spells ws cmd -> new_level ws 50 = 50) -> ~ In (LogLine x) (snd (main_err ev sd t fs argv lines)).
Proof. exact C98_stderr_critical_proof. Qed.
Print Assumptions C98_stderr_critical.

Example C98_stderr_critical_ex : calm ex_side /\ command_line [SetLevel (Some "critical")] ["--debug"; "critical"] /\ opens ex_files (slots [SetLevel (Some "critical")]) None /\
  match DECODER_TREE with
  | Ok t => map (fun l => snd (main_err ex_eval ex_side t ex_files ["--debug"; l] [Line "wreg r99 5"; Line "r98"])) ["critical"; "error"] = [[]; [LogLine (unknown_text "r99")]]
  | Err _ => False
  end.
Proof.
  split; [intros e c l; split; [reflexivity|intros t []]|]. split; [apply cl_level; [vm_compute; tauto|vm_compute; tauto|constructor]|]. split; [left; split; [now left|reflexivity]|].
  vm_compute. reflexivity.
Qed.
