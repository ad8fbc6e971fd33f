(** Property statements; each is proved in ArgsThms.v under the same name.
    Written by tools/genprops.py. *)
From Coq Require Import Lia.
From Verif Require Import ArgsModel TableModel SpecBits SpecCpu SpecDisasm SpecExec SpecIsa SpecSim SpecConsole SpecProg SpecArgs ArgsThms.
Local Open Scope string_scope.
Local Open Scope list_scope.
Local Open Scope Z_scope.

(** C98: the arguments are accepted exactly if they are log levels and at most one file
that can be opened, in any order and spelling; then the level is the last one given, or
"warning", and the file is that one (one dash is standard input).  Everything else shows
the help or the version, or is an error. *)
Theorem C98_arguments : forall fs argv level file,
  get_args fs argv = PArgs level file <->
  exists it, command_line it argv /\ level = level_asked (Some "warning") it /\ opens fs (slots it) file.
Proof. exact C98_arguments_proof. Qed.
Print Assumptions C98_arguments.

Example C98_arguments_ex : (exists it, command_line it ["--deb=info"; "a.bin"; "-d"; "error"] /\ level_asked (Some "warning") it = Some "error" /\
    slots it = [Some "a.bin"]) /\
  get_args ex_files ["--deb=info"; "a.bin"; "-d"; "error"] = get_args ex_files ["-derror"; "--"; "a.bin"] /\
  get_args ex_files ["a.bin"; "a.bin"] = PUsage /\ get_args ex_files ["b.bin"] = PUsage.
Proof.
  split; [|repeat split; vm_compute; reflexivity]. exists [SetLevel (Some "info"); Binary "a.bin"; SetLevel (Some "error")].
  split; [|split; reflexivity]. apply (cl_joined "info"); [vm_compute; tauto|right; exists "--deb"; split; [vm_compute; tauto|reflexivity]|].
  apply cl_file; [left; intros [r X]; discriminate|]. apply cl_level; [vm_compute; tauto|vm_compute; tauto|constructor].
Qed.

(** C98: with a file among its arguments the program is the simulator on the contents of
that file, without one it is the simulator on nothing; the log level makes no difference. *)
Theorem C98_run : forall ev t fs argv lines it level, command_line it argv -> level_asked (Some "warning") it = Some level ->
  (slots it = [] \/ slots it = [None] -> main ev t fs argv lines = ran (program ev t [] lines)) /\
  (forall n d, slots it = [Some n] -> n <> "-" -> fs n = Some d -> main ev t fs argv lines = ran (program ev t d lines)).
Proof. exact C98_run_proof. Qed.
Print Assumptions C98_run.

Example C98_run_ex : exists it, command_line it ["a.bin"; "-ddebug"] /\ level_asked (Some "warning") it = Some "debug" /\ slots it = [Some "a.bin"] /\
  match DECODER_TREE with
  | Ok t => match main ex_eval t ex_files ["a.bin"; "-ddebug"] [Line "s"; Line "r0"], main ex_eval t ex_files ["-d"; "error"; "--"; "a.bin"] [Line "s"; Line "r0"] with
            | Ran s (Exit 0), Ran s' (Exit 0) => reg (sim_cpu s) 0 = 1 /\ out_text s = out_text s'
            | _, _ => False
            end
  | Err _ => False
  end.
Proof.
  exists [Binary "a.bin"; SetLevel (Some "debug")]. split.
  { apply cl_file; [left; intros [r X]; discriminate|]. apply (cl_joined "debug"); [vm_compute; tauto| |constructor]. left. split; [reflexivity|]. split; [discriminate|]. intros [r X]. discriminate. }
  split; [reflexivity|]. split; [reflexivity|]. vm_compute. split; reflexivity.
Qed.

(** C98: if the file is one dash, the binary is what is typed, up to the end of the input;
then the simulator starts and ends at once with an error message and status 0. *)
Theorem C98_stdin : forall ev t fs argv lines it level d, module_tree t -> command_line it argv -> level_asked (Some "warning") it = Some level ->
  slots it = [Some "-"] -> typed_bytes lines = Some d ->
  exists s, sim_start t d = (s, Done tt) /\ main ev t fs argv lines = Ran (fst (print "Error: invalid argument" s)) (Exit 0).
Proof. exact C98_stdin_proof. Qed.
Print Assumptions C98_stdin.

Example C98_stdin_ex : typed_bytes [Line "ab"; Line ""] = Some [97; 98; 10; 10] /\ command_line [Binary "-"] ["-"].
Proof. split; [reflexivity|]. apply cl_file; [right; now left|constructor]. Qed.

(** C98: the program shows the help exactly if an option asks for it and nothing before it
ends the program; likewise the version; and it reports a misuse exactly if it does neither
of them, nor accepts the arguments, nor stumbles over them (C98_traceback_refuted). *)
Theorem C98_outcome : forall ev t fs argv lines,
  let r := main ev t fs argv lines in
  (r = Helped <-> for_help fs argv) /\
  (r = Versioned <-> for_version fs argv) /\
  (r = Misused <-> ~ for_help fs argv /\ ~ for_version fs argv /\ ~ accepted fs argv /\ ~ fatal fs argv).
Proof. exact C98_outcome_proof. Qed.
Print Assumptions C98_outcome.

Example C98_outcome_ex : for_help ex_files ["a.bin"; "b.bin"; "-x"; "-hd"; "loud"] /\ for_version ex_files ["a.bin"; "--ver"; "-d"] /\
  accepted ex_files ["a.bin"] /\ fatal ex_files ["-dinfo"; "-h="] /\
  map (get_args ex_files) [["a.bin"; "b.bin"; "-x"; "-hd"; "loud"]; ["a.bin"; "--ver"; "-d"]; ["-dinfo"; "-h="]; ["-d"; "loud"]; ["b.bin"; "-h"]; ["-hx"]; ["-hd"]; ["--help=1"]; ["-x"]; ["a.bin"; "b.bin"]; ["-h"; "--=1"]] =
  [PHelp; PVersion; PCrash IndexError; PUsage; PUsage; PUsage; PUsage; PUsage; PUsage; PUsage; PUsage].
Proof.
  assert (U : forall argv, forallb (fun w => negb (String.eqb (substring 0 3 w) "--=")) argv = true -> unambiguous argv).
  { intros argv H a w b -> _ [r ->]. rewrite forallb_app in H. apply andb_prop in H. destruct H as [_ H]. destruct r; discriminate H. }
  assert (F : forall w, String.eqb (substring 0 1 w) "-" = false -> file_word w).
  { intros w H. left. intros [r ->]. destruct r; discriminate H. }
  split; [|split; [|split; [|split; [|vm_compute; reflexivity]]]].
  - split; [apply U; reflexivity|]. exists ["a.bin"; "b.bin"; "-x"], "-hd", ["loud"]. split; [reflexivity|]. split.
    + apply le_file; [apply F; reflexivity|right; discriminate|]. apply le_more; [apply F; reflexivity|]. apply le_unknown; [|constructor].
      split; [now exists "x"|]. split; [discriminate|]. split.
      { intros [(a & b & e & A & B & X & [[E N]|[E N]])|I]; [| |vm_compute in I; intuition discriminate].
        - destruct a as [|c a]; [now destruct N|]. injection E as <- _. specialize (A "x"%char (or_introl eq_refl)). vm_compute in A. intuition discriminate.
        - destruct a as [|c a]; [discriminate E|]. injection E as <- _. specialize (A "x"%char (or_introl eq_refl)). vm_compute in A. intuition discriminate. }
      split; [intros [r X]; discriminate|]. split; [intros [r X]; discriminate|]. split; [discriminate|]. split; [intros [r X]; discriminate|].
      intros a I. cbn [In names_level names_help names_version app] in I. repeat (destruct I as [<-|I]; [split; [discriminate|intros [r X]; discriminate]|]). destruct I.
    + right. exists "d", 0%nat. split; [left; split; [reflexivity|intros [r X]; discriminate]|]. right. exists []. split; [reflexivity|]. right.
      exists "loud", []. split; [reflexivity|apply F; reflexivity].
  - split; [apply U; reflexivity|]. exists ["a.bin"], "--ver", ["-d"]. split; [reflexivity|]. split; [|vm_compute; tauto].
    apply le_file; [apply F; reflexivity|right; discriminate|constructor].
  - exists [Binary "a.bin"]. eexists. split; [apply cl_file; [apply F; reflexivity|constructor]|]. right. right. exists "a.bin". eexists. split; [reflexivity|]. split; [discriminate|]. split; reflexivity.
  - split; [apply U; reflexivity|]. exists ["-dinfo"], []. split; [reflexivity|]. apply (le_joined _ _ "info"); [left; vm_compute; tauto| |constructor].
    left. split; [reflexivity|]. split; [discriminate|]. intros [r X]. discriminate.
Qed.

(** C98: the program ends in an orderly way for all other arguments and all input: it runs
to status 0 or 2, or to the status of a SystemExit that an expression raised, unless it is interrupted while it reads its standard input.  Missing: two
words end it with a traceback (C98_traceback_refuted). *)
Theorem C98_ends_partial : forall ev t fs argv lines, module_tree t -> (forall n d, fs n = Some d -> bytes d) ->
  match main ev t fs argv lines with
  | Ran s (Exit z) => z = 0 \/ z = 2 \/ exists cmd, entered lines cmd /\ python ev cmd (EvExit z)
  | Ran s (Uncaught e) => e = Raised IndexError /\ fatal fs argv \/ e = Raised TypeError /\ exists w, In w argv /\ joined "--" w
  | Interrupted => In CtrlC lines /\ In "-" argv
  | Helped | Versioned | Misused => True
  end.
Proof. exact C98_ends_partial_proof. Qed.
Print Assumptions C98_ends_partial.

Example C98_ends_partial_ex : forall n d, ex_files n = Some d -> bytes d.
Proof. intros n d H. unfold ex_files in H. destruct (String.eqb n "a.bin"); [|discriminate]. injection H as <-. repeat (constructor; [lia|]). constructor. Qed.

(** C98 fails for a help option with an equals sign and nothing after it, and for a log
level of two dashes: the program ends with the traceback of an exception. *)
Theorem C98_traceback_refuted : exists a b, forall ev t fs lines,
  main ev t fs a lines = Ran (mksim cpu_new t [] false) (Uncaught (Raised IndexError)) /\
  main ev t fs b lines = Ran (mksim cpu_new t [] false) (Uncaught (Raised TypeError)).
Proof. exact C98_traceback_refuted_proof. Qed.
Print Assumptions C98_traceback_refuted.
