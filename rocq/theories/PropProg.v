(** Property statements; each is proved in ProgThms.v under the same name.
    Written by tools/genprops.py. *)
From Verif Require Import SimModel ProgramModel SpecBits SpecCpu SpecDisasm SpecFormat SpecExec SpecIsa SpecSim SpecConsole SpecProg ProgThms.
From Coq Require Import Lia.
Local Open Scope string_scope.
Local Open Scope list_scope.
Local Open Scope Z_scope.
Local Open Scope bool_scope.

(** C81: a command that begins with a dollar sign evaluates what follows, without the white
space around it, and shows the value: nothing for None, an int in hexadecimal and decimal,
other things as their text, an exception as a message.  The session goes on after these;
SystemExit ends it, KeyboardInterrupt ends the line (C81_lines).
Missing: dollar signs after white space (C81_blank_refuted). *)
Theorem C81_python_partial : forall ev a e b s, blank a -> blank b -> strip e = e -> sim_soft s = false ->
  process_py ev (String "$" (a +++ e +++ b)) s =
    (mksim (fst (ev e (sim_cpu s))) (sim_tree s) (sim_out s ++ shown (snd (ev e (sim_cpu s)))) false, how_ends (snd (ev e (sim_cpu s)))).
Proof. exact C81_python_partial_proof. Qed.
Print Assumptions C81_python_partial.

Example C81_python_partial_ex : on_sim ex_state (fun s => out_text (fst (process_py ex_eval "$ 6 * 7  " s)) = the_line "0x0000002a (42)" /\
  sim_out (fst (process_py ex_eval "$x" s)) = sim_out s ++ shown (EvRaise NameError) /\
  out_text (fst (process_py ex_eval "$-5" s)) = the_line "0x-0000005 (-5)" /\ snd (process_py ex_eval "$exit(3)" s) = Fail (Quit 3)).
Proof. vm_compute. repeat split; reflexivity. Qed.

(** C81 fails for a dollar sign after white space, for instance after a semicolon: then
the expression evaluated begins with the dollar sign. *)
Theorem C81_blank_refuted : exists cmd, trims cmd "$6 * 7" /\ forall ev s, sim_soft s = false ->
  process_py ev cmd s = (mksim (fst (ev "$6 * 7" (sim_cpu s))) (sim_tree s) (sim_out s ++ shown (snd (ev "$6 * 7" (sim_cpu s)))) false, how_ends (snd (ev "$6 * 7" (sim_cpu s)))).
Proof. exact C81_blank_refuted_proof. Qed.
Print Assumptions C81_blank_refuted.

(** C81: all other commands do what they do without expressions. *)
Theorem C81_others : forall ev cmd s, not_python cmd -> process_py ev cmd s = process_command cmd s.
Proof. exact C81_others_proof. Qed.
Print Assumptions C81_others.

Example C81_others_ex : not_python "r0 $" /\ on_sim ex_state (fun s => out_text (fst (process_py ex_eval "r0 $" s)) = out_text (fst (process_command "r0" s))).
Proof.
  split; [|vm_compute; reflexivity]. intros w args H [r E]. apply ConsoleThms.C71_words_proof in H. vm_compute in H. injection H as <- _. discriminate E.
Qed.

(** C81: the hexadecimal text of an int, of at least eight characters.  The function [hex_width],
which the program has but does not use, gives such texts of 2, 4 or 8 characters, and raises for
all other widths the NameError of a variable that does not exist. *)
Theorem C81_hex : (forall z, zero_filled 8 (hex8 z) z) /\
  (forall v w, w = 8 \/ w = 16 \/ w = 32 -> exists t, hex_width v w = Ok t /\ zero_filled (w / 4) t v) /\
  (forall v w, w <> 8 -> w <> 16 -> w <> 32 -> hex_width v w = Err NameError).
Proof. exact C81_hex_proof. Qed.
Print Assumptions C81_hex.

Example C81_hex_ex : hex8 (-5) = "-0000005" /\ hex_width 300 8 = Ok "12c" /\ hex_width 10 16 = Ok "000a".
Proof. vm_compute. repeat split; reflexivity. Qed.

(** C81, what the console does with its input: the commands of a line are run in order;
a line that is not blank is remembered; a blank line runs the remembered line as one command;
a KeyboardInterrupt (out of an expression) ends the line, which is then not remembered;
Ctrl-C at the prompt ends the line on the screen and changes nothing else; the end of the
input ends the line and the session. *)
Theorem C81_lines : forall ev last rest s,
  console_py ev last [] s = print_end s /\
  console_py ev last (CtrlC :: rest) s = (print_end ;; console_py ev last rest) s /\
  (forall line r cs, trims line r -> commands cs r ->
     console_py ev last (Line line :: rest) s =
       match in_order ev cs s with
       | (s', Done _) => console_py ev r rest s'
       | (s', Fail Interrupt) => (print_end ;; console_py ev last rest) s'
       | (s', Fail e) => (s', Fail e)
       end) /\
  (forall line, blank line -> console_py ev last (Line line :: rest) s =
     if String.eqb last "" then console_py ev last rest s else
       match process_py ev last s with
       | (s', Done _) => console_py ev last rest s'
       | (s', Fail Interrupt) => (print_end ;; console_py ev last rest) s'
       | (s', Fail e) => (s', Fail e)
       end).
Proof. exact C81_lines_proof. Qed.
Print Assumptions C81_lines.

Example C81_lines_ex : on_sim ex_state (fun s => out_text (fst (console_py ex_eval "" [Line " $6 * 7 "; CtrlC; Line " "; Line "$ 6 * 7;r99"] s)) =
  the_line "0x0000002a (42)" +++ the_line "" +++ the_line "0x0000002a (42)" +++ the_line "0x0000002a (42)" +++ the_line "Error: unrecognized command 'r99'" +++ the_line "" /\
  out_text (fst (console_py ex_eval "$6 * 7" [Line "$wait;$6 * 7"; Line ""] s)) = the_line "" +++ the_line "0x0000002a (42)" +++ the_line "").
Proof. vm_compute. split; reflexivity. Qed.

(** C81: a session without expressions and interruptions is the session of C67-C71. *)
Theorem C81_same_session : forall ev lines last s, not_python last -> (forall cmd, entered (typed lines) cmd -> not_python cmd) ->
  console_py ev last (typed lines) s = console_run last lines s.
Proof. exact C81_same_session_proof. Qed.
Print Assumptions C81_same_session.

Example C81_same_session_ex : on_sim ex_state (fun s => fst (console_py ex_eval "" (typed ["r0; r1"; " "]) s) = fst (console_run "" ["r0; r1"; " "] s)).
Proof. vm_compute. reflexivity. Qed.

(** C81: nothing after the end of a session matters: what is typed after a command that
ended it is never read. *)
Theorem C81_stop : forall ev lines more last s s' e, console_py ev last lines s = (s', Fail e) -> console_py ev last (lines ++ more) s = (s', Fail e).
Proof. exact C81_stop_proof. Qed.
Print Assumptions C81_stop.

Example C81_stop_ex : on_sim ex_state (fun s => console_py ex_eval "" [Line "r0;quit;r1"] s = (fst (process_command "r0" s), Fail ToolExit)).
Proof. vm_compute. reflexivity. Qed.

(** C81: for every binary and everything typed the program ends by itself, with status 0,
or with status 2, which needs a disassembly command with bad arguments, or with the status of
a SystemExit, which needs an expression that raises it.  No exception gets out, and no error reaches the handlers at the top. *)
Theorem C81_status : forall ev t binary lines, bytes binary -> module_tree t ->
  let s0 := fst (sim_start t binary) in let '(s', r) := console_py ev "" lines s0 in
  (program ev t binary lines = (s', Exit 0) /\ (r = Done tt \/ r = Fail ToolExit /\ exists cmd w args, entered lines cmd /\ spells (w :: args) cmd /\ In (lower w) names_exit)) \/
  (program ev t binary lines = (s', Exit 2) /\ r = Fail SysExit /\ exists cmd w args, entered lines cmd /\ spells (w :: args) cmd /\ In (lower w) names_disasm /\ parse_args args = None) \/
  (exists code cmd, program ev t binary lines = (s', Exit code) /\ r = Fail (Quit code) /\ entered lines cmd /\ python ev cmd (EvExit code)).
Proof. exact C81_status_proof. Qed.
Print Assumptions C81_status.

Example C81_status_ex : match DECODER_TREE with
  | Ok t => let run := fun l => snd (program ex_eval t [] (typed l)) in run [] = Exit 0 /\ run ["bad"; "exit"; "r0"] = Exit 0 /\ run ["disasm -x"; "r0"] = Exit 2 /\ run ["$1/0"] = Exit 0 /\
      run ["r0;$exit(3);quit"] = Exit 3 /\ run ["$wait"] = Exit 0
  | Err _ => False
  end.
Proof. vm_compute. repeat split; reflexivity. Qed.

(** C81: if what is evaluated keeps the machine valid and the memory map, and no command
writes more than 32 bits into a register, the machine stays valid to the end of the program,
with the memory map of the start.  Missing: [wreg] with larger numbers (C71_wide_refuted). *)
Theorem C81_sound_partial : forall ev t binary lines, bytes binary -> module_tree t -> decent ev -> (forall cmd, entered lines cmd -> narrow cmd) ->
  let s' := fst (program ev t binary lines) in cpu_ok (sim_cpu s') /\ module_tree (sim_tree s') /\
  layout (sim_cpu s') = [(0, flash_size binary - 1); (ram_start, ram_start + ram_size binary - 1)] /\
  exists l, sim_out s' = sim_out (fst (sim_start t binary)) ++ l.
Proof. exact C81_sound_partial_proof. Qed.
Print Assumptions C81_sound_partial.

Example C81_sound_partial_ex : decent ex_eval /\ match DECODER_TREE with
  | Ok t => let s := fst (program ex_eval t [0; 4; 0; 32; 8; 0; 0; 0; 1; 32; 64; 28] [Line "s"; CtrlC; Line ""; Line "$6 * 7"; Line "r0"]) in
      out_text s = the_line "CPU model reset." +++ the_line "PC = 0x00000008" +++ the_line "SP = 0x20000400" +++
        the_line "0x00000008:  2001         movs    r0, #1" +++ the_line "" +++ the_line "0x0000000a:  1c40         adds    r0, r0, #1" +++
        the_line "0x0000002a (42)" +++ the_line "r0 = 0x00000002 (2)" +++ the_line ""
  | Err _ => False
  end.
Proof. split; [intros t c H; unfold ex_eval; repeat (match goal with |- context [if ?b then _ else _] => destruct b end); now split|]. vm_compute. reflexivity. Qed.
