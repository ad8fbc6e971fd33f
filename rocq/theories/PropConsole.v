(** Property statements; each is proved in ConsoleThms.v under the same name.
    Written by tools/genprops.py. *)
From Verif Require Import SimModel SpecBits SpecCpu SpecWhole SpecDecoder SpecDisasm SpecFormat SpecExec SpecIsa ExecFacts SpecSim SpecConsole ConsoleThms.
From Coq Require Import Lia.
Local Open Scope string_scope.
Local Open Scope list_scope.
Local Open Scope Z_scope.
Local Open Scope bool_scope.

(** C65, creation: a new machine with two regions: from 0 on at least 64 KiB with the
binary followed by zeros, and from 0x1fff8000 on at least 64 KiB of zeros, up to the
initial stack pointer. *)
Theorem C65_create : forall binary, bytes binary -> create_sim binary = Ok (fresh_sim binary) /\ cpu_ok (fresh_sim binary).
Proof. exact C65_create_proof. Qed.
Print Assumptions C65_create.

Example C65_create_ex : match create_sim [0; 0; 2; 32; 9; 0; 0; 0] with
  | Ok c => layout c = [(0, 65535); (536838144, 537001983)] /\ cell c 0 2 = Some 2 /\ cell c 0 8 = Some 0 /\ cell c 0 65536 = None
  | Err _ => False end.
Proof. vm_compute. repeat split; reflexivity. Qed.

(** C65, reset of any machine whose words at 0 and 4 can be read: pc becomes the word at
4 if it points to memory, sp (and msp) the word at 0, rounded down to a multiple of four,
if the word below it is in memory; everything else stays. *)
Theorem C65_reset : forall s v0 v4, ready s -> 
  let c := sim_cpu s in read32 c (NInt 0) = Ok (bits 32 v0) -> read32 c (NInt 4) = Ok (bits 32 v4) -> 0 <= v0 < 2 ^ 32 -> 0 <= v4 < 2 ^ 32 ->
  exists c' s', reset_sim s = (s', Done tt) /\ printed (on_cpu s c') (reset_text v4 v0) s' /\ c_mem c' = c_mem c /\ (cpu_ok c -> cpu_ok c') /\
    forall k, reg c' k = if (k =? 15) && mapped_in c v4 then v4
                        else if ((k =? 13) || (k =? 17)) && mapped_in c (v0 - 4) then v0 - v0 mod 4
                        else reg c k.
Proof. exact C65_reset_proof. Qed.
Print Assumptions C65_reset.

Example C65_reset_ex : on_sim (ex_code [7; 0; 0; 0; 5; 0; 0; 0]) (fun s => exists s', reset_sim s = (s', Done tt) /\
  reg (sim_cpu s') 15 = 5 /\ reg (sim_cpu s') 13 = 4 /\ reg (sim_cpu s') 17 = 4 /\ out_text s' = reset_text 5 7).
Proof. vm_compute. eexists. repeat split; reflexivity. Qed.

(** C65: after the start with a binary pc and sp come from its vector table, if they
point to memory (for sp: the word below it); otherwise they are 0 as in a new machine. *)
Theorem C65_start : forall t binary, bytes binary -> module_tree t ->
  let v0 := vector binary 0 in let v4 := vector binary 4 in
  exists s' l, sim_start t binary = (s', Done tt) /\ ready s' /\ sim_tree s' = t /\ sim_out s' = map Txt l /\ glue l = reset_text v4 v0 /\
    cpu_ok (sim_cpu s') /\ c_mem (sim_cpu s') = c_mem (fresh_sim binary) /\
    forall k, core k -> reg (sim_cpu s') k = if k =? 15 then (if is_mapped binary v4 then v4 else 0)
      else if (k =? 13) || (k =? 17) then (if is_mapped binary (v0 - 4) then v0 - v0 mod 4 else 0)
      else if k =? 16 then 2 ^ 24 else 0.
Proof. exact C65_start_proof. Qed.
Print Assumptions C65_start.

Example C65_start_ex : match DECODER_TREE with
  | Ok t => match sim_start t [8; 0; 0; 32; 9; 0; 0; 0] with
            | (s, Done _) => reg (sim_cpu s) 15 = 9 /\ reg (sim_cpu s) 13 = 536870920 /\ out_text s = reset_text 9 536870920
            | _ => False end /\
            match sim_start t [8; 0; 0; 0; 0; 0; 1; 0] with
            | (s, Done _) => reg (sim_cpu s) 15 = 0 /\ reg (sim_cpu s) 13 = 8
            | _ => False end
  | Err _ => False end.
Proof. vm_compute. repeat split; reflexivity. Qed.

(** C71: the words of a line are what is between the white space. *)
Theorem C71_words : forall ws line, spells ws line <-> SimModel.words line = ws.
Proof. exact C71_words_proof. Qed.
Print Assumptions C71_words.

Example C71_words_ex : spells ["read"; "0x10"] " read   0x10" /\ SimModel.words " read   0x10" = ["read"; "0x10"].
Proof. split; [|reflexivity]. apply C71_words_proof. reflexivity. Qed.

(** C71: a line is split at its semicolons, and the parts are commands executed in this
order, until one ends the console. *)
Theorem C71_sequence : forall cs line s, commands cs line ->
  process_command_line line s = fold_left (fun r cmd => match r with (s', Done _) => process_command cmd s' | _ => r end) cs (s, Done tt).
Proof. exact C71_sequence_proof. Qed.
Print Assumptions C71_sequence.

Example C71_sequence_ex : commands ["r0"; " wreg r0 5 "; "r0"] "r0; wreg r0 5 ;r0" /\
  on_sim cpu_new (fun s => out_text (fst (process_command_line "r0; wreg r0 5 ;r0" s)) = the_line "r0 = 0x00000000 (0)" +++ the_line "r0 = 0x00000005 (5)").
Proof.
  split; [|vm_compute; reflexivity].
  assert (N : forall t, forallb (fun x => negb (Ascii.eqb x ";")) (chars t) = true -> no_char ";" t).
  { intros t F I. rewrite forallb_forall in F. specialize (F _ I). discriminate F. }
  apply (commands_cons "r0" _ " wreg r0 5 ;r0"); [now apply N|]. apply (commands_cons " wreg r0 5 " _ "r0"); [now apply N|]. apply commands_last. now apply N.
Qed.

(** C70: the commands and what they do; register names show the register; anything else
is reported as unknown.  The case of a command does not matter. *)
Theorem C70_commands : forall w args cmd s, spells (w :: args) cmd -> ~ starts "$" w ->
  let name := lower w in let run := dispatch cmd s in
  (In name names_read8 -> run = do_read args 8 s) /\ (In name names_read16 -> run = do_read args 16 s) /\ (In name names_read32 -> run = do_read args 32 s) /\
  (In name names_write8 -> run = do_write args 8 s) /\ (In name names_write16 -> run = do_write args 16 s) /\ (In name names_write32 -> run = do_write args 32 s) /\
  (In name names_step -> run = handle_step args s) /\ (In name names_disasm -> run = handle_disasm args s) /\
  (In name names_info -> run = print "" s) /\ (In name names_exit -> run = (s, Fail ToolExit)) /\
  (In name names_help -> run = (if Nat.eqb (List.length args) 0 then list_commands s else (s, Done tt))) /\
  (name = "reg" -> run = handle_reg args s) /\ (name = "wreg" -> run = handle_write_reg args s) /\
  (name = "reset" -> run = (s, Fail (Raised TypeError))) /\ (name = "map" -> run = (s, Done tt)) /\ (name = "log" -> run = handle_log args s) /\
  (forall k, register_name_to_index (RName name) = Some k -> run = handle_reg [name] s) /\
  (~ In name all_names -> register_name_to_index (RName name) = None -> run = print ("Error: unrecognized command '" +++ name +++ "'") s).
Proof. exact C70_commands_proof. Qed.
Print Assumptions C70_commands.

Example C70_commands_ex : on_sim (ex_code [1; 2; 3; 4]) (fun s =>
  out_text (fst (process_command " RH 2 " s)) = the_line "00000002:  0403" /\ out_text (fst (process_command "LR" s)) = the_line "lr = 0x00000000 (0)" /\
  out_text (fst (process_command "run 1" s)) = the_line "Error: unrecognized command 'run'").
Proof. vm_compute. repeat split; reflexivity. Qed.

(** C70: the help text. *)
Theorem C70_help : forall s, ready s -> exists s', list_commands s = (s', Done tt) /\ printed s help_text s'.
Proof. exact C70_help_proof. Qed.
Print Assumptions C70_help.

Example C70_help_ex : on_sim cpu_new (fun s => out_text (fst (process_command "help" s)) = help_text).
Proof. vm_compute. reflexivity. Qed.

(** C70: every name the help lists, except status and stat, is a command, and the names
in one line do the same; of the commands only map is not listed.  Missing: status. *)
Theorem C70_names_partial : forall line s args, In line listed -> line <> ["stat"; "status"] ->
  (forall n, In n line -> In n all_names) /\
  (forall n m cmd cmd', In n line -> In m line -> spells (n :: args) cmd -> spells (m :: args) cmd' -> dispatch cmd s = dispatch cmd' s) /\
  (forall n, In n all_names -> n = "map" \/ exists l, In l listed /\ In n l).
Proof. exact C70_names_partial_proof. Qed.
Print Assumptions C70_names_partial.

Example C70_names_partial_ex : In ["s"; "step"] listed /\ on_sim (ex_code [0; 191; 0; 191]) (fun s => process_command "s" s = process_command "step" s).
Proof. split; [vm_compute; tauto|]. vm_compute. reflexivity. Qed.

(** C70 fails: the help lists status, which is not a command. *)
Theorem C70_refuted : exists line n, In line listed /\ In n line /\ 
  forall s cmd args, spells (n :: args) cmd -> dispatch cmd s = print ("Error: unrecognized command '" +++ n +++ "'") s.
Proof. exact C70_refuted_proof. Qed.
Print Assumptions C70_refuted.

(** C67, what the console does with its input: a line that is not blank is executed and
remembered, without the white space around it; a blank line executes the remembered line
as a single command; the end of the input ends the line on the screen. *)
Theorem C67_lines : forall last s,
  console_run last [] s = print_end s /\
  (forall line r rest, trims line r -> console_run last (line :: rest) s = (process_command_line r ;; console_run r rest) s) /\
  (forall line rest, blank line -> console_run last (line :: rest) s = (if String.eqb last "" then console_run last rest s else (process_command last ;; console_run last rest) s)) /\
  (forall line, blank line \/ exists r, trims line r).
Proof. exact C67_lines_proof. Qed.
Print Assumptions C67_lines.

Example C67_lines_ex : trims "  r0 " "r0" /\ on_sim cpu_new (fun s => out_text (fst (console_run "" ["  r0 "; ""; "r1"; "  "] s)) =
  the_line "r0 = 0x00000000 (0)" +++ the_line "r0 = 0x00000000 (0)" +++ the_line "r1 = 0x00000000 (0)" +++ the_line "r1 = 0x00000000 (0)" +++ the_line "").
Proof.
  split; [|vm_compute; reflexivity].
  exists "  ", " ". split; [repeat constructor|]. split; [repeat constructor|]. split; [reflexivity|].
  split; [exists "r"%char, ["0"%char]|exists "0"%char, ["r"%char]]; (split; [reflexivity|]); intros I; cbn in I; repeat destruct I as [I|I]; try discriminate I; exact I.
Qed.

(** C67: after a line with a single command, a blank line does what typing the line
again does.  Missing: lines with several commands. *)
Theorem C67_blank_partial : forall last line b rest s, no_char ";" line -> blank b ->
  console_run last (line :: b :: rest) s = console_run last (line :: line :: rest) s.
Proof. exact C67_blank_partial_proof. Qed.
Print Assumptions C67_blank_partial.

Example C67_blank_partial_ex : on_sim (ex_code [1; 32; 64; 28; 0; 191]) (fun s => console_run "" ["s"; ""] s = console_run "" ["s"; "s"] s /\ 
  reg (sim_cpu (fst (console_run "" ["s"; ""] s))) 15 = 4 /\ reg (sim_cpu (fst (console_run "" ["s"; ""] s))) 0 = 2).
Proof. vm_compute. repeat split; reflexivity. Qed.

(** C67 fails for lines with semicolons: a blank line runs the whole line as one command. *)
Theorem C67_refuted : exists line, on_sim cpu_new (fun s =>
  out_text (fst (console_run "" [line; ""] s)) <> out_text (fst (console_run "" [line; line] s)) /\
  out_text (fst (console_run "" [line; ""] s)) = the_line "r0 = 0x00000000 (0)" +++ the_line "r1 = 0x00000000 (0)" +++ the_line "Error: unrecognized command 'r0;r1'" +++ the_line "").
Proof. exact C67_refuted_proof. Qed.
Print Assumptions C67_refuted.

(** C67: blank lines before the first command do nothing. *)
Theorem C67_start : forall bs rest s, Forall blank bs -> console_run "" (bs ++ rest) s = console_run "" rest s.
Proof. exact C67_start_proof. Qed.
Print Assumptions C67_start.

Example C67_start_ex : on_sim cpu_new (fun s => console_run "" [""; "   "; "r0"] s = console_run "" ["r0"] s).
Proof. vm_compute. reflexivity. Qed.

(** C69: commands other than the writes, [step] and [wreg] do not change the machine:
registers and memory are as before, whatever the arguments. *)
Theorem C69_inspect : forall cmd s, (forall w args, spells (w :: args) cmd -> ~ In (lower w) changing) ->
  sim_cpu (fst (process_command cmd s)) = sim_cpu s.
Proof. exact C69_inspect_proof. Qed.
Print Assumptions C69_inspect.

Example C69_inspect_ex : on_sim (ex_code [1; 32; 64; 28]) (fun s => sim_cpu (fst (process_command "d 0 4" s)) = sim_cpu s /\
  out_text (fst (process_command "d 0 4" s)) = the_line "0x00000000:* 2001         movs    r0, #1" +++ the_line "0x00000002:  1c40         adds    r0, r0, #1").
Proof. vm_compute. split; reflexivity. Qed.

(** C69: whatever is typed, what has been printed stays: commands only add to the
output. *)
Theorem C69_output : forall cmd s, exists l, sim_out (fst (process_command cmd s)) = sim_out s ++ l.
Proof. exact C69_output_proof. Qed.
Print Assumptions C69_output.

Example C69_output_ex : on_sim (ex_code [1; 32; 64; 28]) (fun s => out_text (fst (process_command "s" s)) = the_line "0x00000000:  2001         movs    r0, #1").
Proof. vm_compute. reflexivity. Qed.

(** C71: the only commands that leave the console are [exit] and [quit], [disasm] with
an option it does not know, and Python expressions; all other errors are printed and
the console goes on. *)
Theorem C71_goes_on : forall cmd s,
  match snd (process_command cmd s) with
  | Done _ => True
  | Fail ToolExit => exists w args, spells (w :: args) cmd /\ In (lower w) names_exit
  | Fail SysExit => exists w args, spells (w :: args) cmd /\ In (lower w) names_disasm /\ parse_args args = None
  | Fail (Eval _) => exists w args, spells (w :: args) cmd /\ starts "$" w
  | Fail _ => False
  end.
Proof. exact C71_goes_on_proof. Qed.
Print Assumptions C71_goes_on.

Example C71_goes_on_ex : on_sim cpu_new (fun s => snd (process_command "read" s) = Done tt /\ snd (process_command "w 0x" s) = Done tt /\
  snd (process_command "reset" s) = Done tt /\ snd (process_command "disasm -x" s) = Fail SysExit /\ snd (process_command "QUIT now" s) = Fail ToolExit).
Proof. vm_compute. repeat split; reflexivity. Qed.

(** C71: how errors are shown: invalid arguments and the errors of the tool with their
text, any other exception with its own. *)
Theorem C71_messages : forall cmd s s', 
  (forall e, dispatch cmd s = (s', Fail (Raised e)) -> sim_soft s' = false ->
    process_command cmd s = (mksim (sim_cpu s') (sim_tree s')
      (sim_out s' ++ (match e with ValueError => [Txt "Error: invalid argument"; Txt newline] | _ => [Txt "Unexpected exception:"; Txt " "; ErrText e; Txt newline] end)) false, Done tt)) /\
  (forall m, dispatch cmd s = (s', Fail (Tool m)) -> sim_soft s' = false -> exists s2, process_command cmd s = (s2, Done tt) /\ printed s' (the_line ("Error: " +++ m)) s2) /\
  (dispatch cmd s = (s', Done tt) -> process_command cmd s = (s', Done tt)).
Proof. exact C71_messages_proof. Qed.
Print Assumptions C71_messages.

Example C71_messages_ex : on_sim cpu_new (fun s => out_text (fst (process_command "wreg r0" s)) = the_line "Error: No value specified" /\
  out_text (fst (process_command "r 12x" s)) = the_line "Error: invalid argument" /\ sim_out (fst (process_command "s" s)) = [Txt "Unexpected exception:"; Txt " "; ErrText TypeError; Txt newline]).
Proof. vm_compute. repeat split; reflexivity. Qed.

(** C69: the register commands: [reg] alone shows 23 registers in columns, with a name,
in any case, this register in hexadecimal and decimal; a register name is itself a
command; an unknown name is an error. *)
Theorem C69_registers : forall s a more, sound s -> let c := sim_cpu s in
  (exists s', handle_reg [] s = (s', Done tt) /\ printed s (all_registers c) s') /\
  (forall k, register_name_to_index (RName a) = Some k -> exists s' d, handle_reg (a :: more) s = (s', Done tt) /\ dec_text d (reg c k) /\
    printed s (the_line (lower a +++ " = 0x" +++ hexn 8 (reg c k) +++ " (" +++ d +++ ")")) s') /\
  (register_name_to_index (RName a) = None -> handle_reg (a :: more) s = (s, Fail (Tool ("invalid register '" +++ lower a +++ "'")))).
Proof. exact C69_registers_proof. Qed.
Print Assumptions C69_registers.

Example C69_registers_ex : on_sim ex_state (fun s => out_text (fst (process_command "R13" s)) = the_line "r13 = 0x00000030 (48)" /\
  out_text (fst (process_command "reg" s)) = all_registers ex_state /\ out_text (fst (process_command "reg r99" s)) = the_line "Error: invalid register 'r99'").
Proof. vm_compute. repeat split; reflexivity. Qed.

(** C69: [wreg] writes the value to the register, or to the pair sp/msp, with the bits
the register does not have cleared, and changes nothing else; without a register or a
value it is an error. *)
Theorem C69_wreg : forall s a k v x pre more, sound s -> register_name_to_index (RName a) = Some k -> argument (sim_cpu s) v x pre ->
  (exists c' s', handle_write_reg (a :: v :: more) s = (s', Done tt) /\ printed (on_cpu s c') pre s' /\
    c_mem c' = c_mem (sim_cpu s) /\ forall j, reg_get (c_regs c') (Some j) = if written k j then Some (kept k x) else reg_get (c_regs (sim_cpu s)) (Some j)) /\
  handle_write_reg [a] s = (s, Fail (Tool "No value specified")) /\ handle_write_reg [] s = (s, Fail (Tool "No register specified")).
Proof. exact C69_wreg_proof. Qed.
Print Assumptions C69_wreg.

Example C69_wreg_ex : on_sim ex_state (fun s => reg (sim_cpu (fst (process_command "wreg MSP 0x_103" s))) 13 = 256 /\ reg (sim_cpu (fst (process_command "wreg r2 [sp,-4]" s))) 2 = 0).
Proof. vm_compute. split; reflexivity. Qed.

(** C69 fails for unknown names: [wreg] accepts them without a message, and stores
nothing in any register. *)
Theorem C69_unknown_refuted : exists name, register_name_to_index (RName name) = None /\ forall s v x pre more, sound s -> argument (sim_cpu s) v x pre ->
  exists c' s', handle_write_reg (name :: v :: more) s = (s', Done tt) /\ printed (on_cpu s c') pre s' /\ c_mem c' = c_mem (sim_cpu s) /\
    forall j, reg_get (c_regs c') (Some j) = reg_get (c_regs (sim_cpu s)) (Some j).
Proof. exact C69_unknown_refuted_proof. Qed.
Print Assumptions C69_unknown_refuted.

(** C71: every command that does not write more than 32 bits into a register leaves the
machine well formed (all registers 32 bits wide, stack pointers aligned and equal, memory
complete), the same addresses mapped, and the cursor at the beginning of a line.  Missing:
[wreg] with larger numbers (C71_wide_refuted). *)
Theorem C71_sound_partial : forall cmd s, sound s -> narrow cmd ->
  sound (fst (process_command cmd s)) /\ layout (sim_cpu (fst (process_command cmd s))) = layout (sim_cpu s).
Proof. exact C71_sound_partial_proof. Qed.
Print Assumptions C71_sound_partial.

Example C71_sound_partial_ex : narrow "step" /\ on_sim ex_state (fun s => sim_soft (fst (process_command "step" s)) = false).
Proof.
  split; [|vm_compute; reflexivity]. intros w r v more H E. apply C71_words_proof in H. vm_compute in H. discriminate H.
Qed.

(** C71 fails for [wreg] with larger numbers: afterwards the register holds more than
32 bits, and the machine works on with a 33-bit register. *)
Theorem C71_wide_refuted : exists cmd, on_sim cpu_new (fun s => reg (sim_cpu (fst (process_command cmd s))) 0 = 2 ^ 32 + 5 /\
  out_text (fst (process_command "r0" (fst (process_command cmd s)))) = the_line "r0 = 0x100000005 (4294967301)").
Proof. exact C71_wide_refuted_proof. Qed.
Print Assumptions C71_wide_refuted.

(** C71: whole sessions.  From a sound state, after any lines without writes of more
than 32 bits, the state is sound and the same addresses are mapped; the session ends
normally at the end of the input, unless a command left the console. *)
Theorem C71_session_partial : forall lines last s, sound s -> narrow last ->
  (forall line r, In line lines -> trims line r -> narrow r /\ forall cs, commands cs r -> Forall narrow cs) ->
  let s' := fst (console_run last lines s) in sound s' /\ layout (sim_cpu s') = layout (sim_cpu s) /\ (exists l, sim_out s' = sim_out s ++ l) /\
  match snd (console_run last lines s) with Fail (Raised _) | Fail (Tool _) => False | _ => True end.
Proof. exact C71_session_partial_proof. Qed.
Print Assumptions C71_session_partial.

Example C71_session_partial_ex : on_sim ex_state (fun s => snd (console_run "" ["s"; "  "; "r0; reg"; "d"] s) = Done tt /\ snd (console_run "" ["s"; "quit"; "r0"] s) = Fail ToolExit).
Proof. vm_compute. split; reflexivity. Qed.

(** C71: a program started from any binary and given any such lines is sound to the
end, with the memory map of the start. *)
Theorem C71_main_partial : forall t binary lines, bytes binary -> module_tree t ->
  (forall line r, In line lines -> trims line r -> narrow r /\ forall cs, commands cs r -> Forall narrow cs) ->
  let s' := fst (sim_main t binary lines) in sound s' /\
  layout (sim_cpu s') = [(0, flash_size binary - 1); (ram_start, ram_start + ram_size binary - 1)].
Proof. exact C71_main_partial_proof. Qed.
Print Assumptions C71_main_partial.

Example C71_main_partial_ex : match DECODER_TREE with
  | Ok t => let s := fst (sim_main t [0; 4; 0; 32; 8; 0; 0; 0; 1; 32; 64; 28] ["s"; ""; "r0"]) in
      out_text s = the_line "CPU model reset." +++ the_line "PC = 0x00000008" +++ the_line "SP = 0x20000400" +++
        the_line "0x00000008:  2001         movs    r0, #1" +++ the_line "0x0000000a:  1c40         adds    r0, r0, #1" +++ the_line "r0 = 0x00000002 (2)" +++ the_line ""
  | Err _ => False
  end.
Proof. vm_compute. reflexivity. Qed.

(** C72, options: -c and --center, also abbreviated, repeated and anywhere among the
arguments, center the listing; behind -- everything is an argument; anything else that
starts with a dash ends the program. *)
Theorem C72_options : forall args,
  (forall center other, options args center other <-> parse_args args = Some (center, other)) /\
  (parse_args args = None -> forall s, handle_disasm args s = (s, Fail SysExit)).
Proof. exact C72_options_proof. Qed.
Print Assumptions C72_options.

Example C72_options_ex : options ["r0"; "--cen"; "8"] true ["r0"; "8"] /\ parse_args ["r0"; "-4"] = None.
Proof. split; [apply C72_options_proof; vm_compute; reflexivity|vm_compute; reflexivity]. Qed.

(** C72: [disasm] lists the instructions in the given number of bytes from the given
even address on, each with its address, a star at the pc and its text; an undefined
instruction is announced in front of what comes before it; other exceptions of the
decoder come out and nothing is listed; without an instruction the command ends with
IndexError, outside the memory with TypeError. *)
Theorem C72_disasm : forall s args center other a n pre, sound s -> options args center other -> disasm_args (sim_cpu s) other a n pre ->
  let c := sim_cpu s in let b := first_address center a n in
  (unmapped c b -> exists s', handle_disasm args s = (s', Fail (Raised TypeError)) /\ printed s pre s') /\
  (forall i m, located c b i m -> 0 <= n -> 0 <= b -> b + n <= 2 ^ 32 ->
    let data := firstn (Z.to_nat n) (skipn (Z.to_nat (b - m_start m)) (m_data m)) in
    forall l r, listing Py2 b data l r -> exists t s', listing_text (even_pc c) l t /\
      match r with
      | Ok _ => if match l with [] => true | _ => false end then handle_disasm args s = (s', Fail (Raised IndexError)) /\ decoded s pre s'
                else handle_disasm args s = (s', Done tt) /\ decoded s (pre +++ t) s'
      | Err UndefinedInstructionError =>
        if match l with [] => true | _ => false end then handle_disasm args s = (s', Fail (Raised IndexError)) /\ decoded s (pre +++ the_line "Undefined instruction") s'
        else handle_disasm args s = (s', Done tt) /\ decoded s (pre +++ the_line "Undefined instruction" +++ t) s'
      | Err e => handle_disasm args s = (s', Fail (Raised e)) /\ decoded s pre s'
      end).
Proof. exact C72_disasm_proof. Qed.
Print Assumptions C72_disasm.

Example C72_disasm_ex : on_sim (ex_code [1; 32; 64; 28; 0; 191; 0; 182; 0; 191]) (fun s =>
  out_text (fst (process_command "d" s)) = the_line "pc = 0x00000000" +++ the_line "0x00000000:* 2001         movs    r0, #1" +++ the_line "0x00000002:  1c40         adds    r0, r0, #1" +++ the_line "0x00000004:  bf00         nop     " /\
  out_text (fst (process_command "d -c 5 4" s)) = the_line "0x00000002:  1c40         adds    r0, r0, #1" +++ the_line "0x00000004:  bf00         nop     " /\
  out_text (fst (process_command "d 4 6" s)) = the_line "Undefined instruction" +++ the_line "0x00000004:  bf00         nop     ").
Proof. vm_compute. repeat split; reflexivity. Qed.

(** C70, log: it wants one of five levels, in any case, and prints nothing then; without
a level, or with another one, it prints an error.  Nothing else changes. *)
Theorem C70_log : forall args s, ready s ->
  match args with
  | [] => exists s', handle_log args s = (s', Done tt) /\ printed s (the_line "Error: no log level provided") s'
  | a :: _ =>
    (In (lower a) ["debug"; "info"; "warning"; "error"; "critical"] -> handle_log args s = (s, Done tt)) /\
    (~ In (lower a) ["debug"; "info"; "warning"; "error"; "critical"] ->
      handle_log args s = (mksim (sim_cpu s) (sim_tree s) (sim_out s ++ [LevelError; Txt newline]) false, Done tt))
  end.
Proof. exact C70_log_proof. Qed.
Print Assumptions C70_log.

Example C70_log_ex : on_sim cpu_new (fun s => out_text (fst (process_command "log DeBug" s)) = "" /\ sim_out (fst (process_command "log all" s)) = [LevelError; Txt newline]).
Proof. vm_compute. split; reflexivity. Qed.
