(** * Proofs of the statements about the whole program *)
From Verif Require Import SimModel ProgramModel SpecBits BitFacts BitText SpecCpu CpuFacts SpecDisasm SpecFormat SpecExec SpecIsa SpecSim SpecConsole SpecProg SimFacts SimThms ConsoleThms.
From Coq Require Import Lia.
Local Open Scope string_scope.
Local Open Scope list_scope.
Local Open Scope Z_scope.
Local Open Scope bool_scope.
(*@imports From Verif Require Import SimModel ProgramModel SpecBits SpecCpu SpecDisasm SpecFormat SpecExec SpecIsa SpecSim SpecConsole SpecProg ProgThms.
From Coq Require Import Lia.
Local Open Scope string_scope.
Local Open Scope list_scope.
Local Open Scope Z_scope.
Local Open Scope bool_scope. @*)

(** ** Commands *)
Lemma sbind_eq : forall {A B} (m : act A) (k : A -> act B) s, sbind m k s = match m s with (s', Done a) => k a s' | (s', Fail e) => (s', Fail e) end.
Proof. reflexivity. Qed.
Lemma handle_python_ok : forall ev e s, sim_soft s = false ->
  handle_python ev e s = (mksim (fst (ev e (sim_cpu s))) (sim_tree s) (sim_out s ++ shown (snd (ev e (sim_cpu s)))) false, how_ends (snd (ev e (sim_cpu s)))).
Proof.
  intros ev e [c t o so] S. cbn [sim_soft] in S. subst so. unfold handle_python, sbind, the_cpu. cbn [sim_cpu].
  destruct (ev e c) as [c' r]. unfold set_cpu. cbn [fst snd sim_cpu sim_tree sim_out].
  destruct r; unfold shown, how_ends; cbn [snd]; [unfold sret; now rewrite app_nil_r| | | |unfold sfail; now rewrite app_nil_r|unfold sfail; now rewrite app_nil_r]; unfold print, print_comma, print_item, print_end, sbind; cbn [sim_soft sim_cpu sim_tree sim_out]; rewrite <- ?app_assoc; reflexivity.
Qed.
Lemma handle_python_done : forall ev e s, snd (handle_python ev e s) = how_ends (snd (ev e (sim_cpu s))) /\ exists l, sim_out (fst (handle_python ev e s)) = sim_out s ++ l.
Proof.
  intros ev e [c t o so]. unfold handle_python, sbind, the_cpu. cbn [sim_cpu]. destruct (ev e c) as [c' r].
  unfold set_cpu. destruct r; [split; [reflexivity|]; exists []; symmetry; apply app_nil_r| | | |split; [reflexivity|]; exists []; symmetry; apply app_nil_r|split; [reflexivity|]; exists []; symmetry; apply app_nil_r]; unfold print, print_comma, print_item, print_end, sbind; cbn [sim_soft sim_cpu sim_tree sim_out fst snd];
    rewrite <- ?app_assoc; (split; [reflexivity|]); eexists; reflexivity.
Qed.
Lemma process_dollar : forall x t cmd s, chars (strip cmd) = "$"%char :: x -> chars cmd = t -> process_command cmd s = (s, Fail (Eval (strip (of_chars (List.tl t))))).
Proof. intros x t cmd s E <-. unfold process_command, dispatch. rewrite E. reflexivity. Qed.

(*@doc C81: a command that begins with a dollar sign evaluates what follows, without the white
space around it, and shows the value: nothing for None, an int in hexadecimal and decimal,
other things as their text, an exception as a message.  The session goes on after these;
SystemExit ends it, KeyboardInterrupt ends the line (C81_lines).
Missing: dollar signs after white space (C81_blank_refuted). @*)
Lemma C81_python_partial_proof : forall ev a e b s, blank a -> blank b -> strip e = e -> sim_soft s = false ->
  process_py ev (String "$" (a +++ e +++ b)) s =
    (mksim (fst (ev e (sim_cpu s))) (sim_tree s) (sim_out s ++ shown (snd (ev e (sim_cpu s)))) false, how_ends (snd (ev e (sim_cpu s)))).
Proof.
  intros ev a e b s A B T S. 
  destruct (strip_head [] "$" (chars (a +++ e +++ b))) as [x E]; [constructor|intros W; apply space_ws in W; discriminate W|].
  unfold process_py. rewrite (process_dollar x _ (String "$" (a +++ e +++ b)) s) by (try reflexivity; unfold strip; rewrite chars_of_chars; exact E).
  cbn [chars List.tl]. rewrite of_chars_chars.
  assert (TR : strip (a +++ e +++ b) = e).
  { destruct (C67_lines_proof "" s) as (_ & _ & _ & D). destruct (D e) as [BE|[r R]].
    - apply blank_strip in BE. rewrite T in BE. subst e. apply blank_strip. unfold blank. rewrite !chars_app. apply Forall_app. split; [exact A|]. exact B.
    - destruct (trims_strip _ _ R) as [E1 _]. rewrite T in E1. subst r. destruct R as (a' & b' & A' & B' & EQ & H & K).
      apply trims_strip. exists a, b. repeat split; assumption. }
  rewrite TR. now apply handle_python_ok.
Qed.
(*@ex
Example C81_python_partial_ex : on_sim ex_state (fun s => out_text (fst (process_py ex_eval "$ 6 * 7  " s)) = the_line "0x0000002a (42)" /\
  sim_out (fst (process_py ex_eval "$x" s)) = sim_out s ++ shown (EvRaise NameError) /\
  out_text (fst (process_py ex_eval "$-5" s)) = the_line "0x-0000005 (-5)" /\ snd (process_py ex_eval "$exit(3)" s) = Fail (Quit 3)).
Proof. vm_compute. repeat split; reflexivity. Qed.
@*)

(*@doc C81 fails for a dollar sign after white space, for instance after a semicolon: then
the expression evaluated begins with the dollar sign. @*)
Lemma C81_blank_refuted_proof : exists cmd, trims cmd "$6 * 7" /\ forall ev s, sim_soft s = false ->
  process_py ev cmd s = (mksim (fst (ev "$6 * 7" (sim_cpu s))) (sim_tree s) (sim_out s ++ shown (snd (ev "$6 * 7" (sim_cpu s)))) false, how_ends (snd (ev "$6 * 7" (sim_cpu s)))).
Proof.
  exists " $6 * 7". split.
  - exists " ", "". assert (D : forall c, is_ws c = false -> ~ space c) by (intros c W X; apply space_ws in X; congruence).
    split; [constructor; [now apply space_ws|constructor]|]. split; [constructor|]. split; [reflexivity|]. split.
    + exists "$"%char, (chars "6 * 7"). split; [reflexivity|now apply D].
    + exists "7"%char, (chars "$6 * "). split; [reflexivity|now apply D].
  - intros ev s S. unfold process_py. rewrite (process_dollar (chars "6 * 7") (chars " $6 * 7")) by reflexivity.
    change (strip (of_chars (List.tl (chars " $6 * 7")))) with "$6 * 7". now apply handle_python_ok.
Qed.

(*@doc C81: all other commands do what they do without expressions. @*)
Lemma C81_others_proof : forall ev cmd s, not_python cmd -> process_py ev cmd s = process_command cmd s.
Proof.
  intros ev cmd s N. unfold process_py. pose proof (C71_goes_on_proof cmd s) as G. destruct (process_command cmd s) as [s' [u|e]]; [reflexivity|].
  destruct e; try reflexivity. cbn [snd] in G. destruct G as (w & args & SP & ST). exfalso. exact (N w args SP ST).
Qed.
(*@ex
Example C81_others_ex : not_python "r0 $" /\ on_sim ex_state (fun s => out_text (fst (process_py ex_eval "r0 $" s)) = out_text (fst (process_command "r0" s))).
Proof.
  split; [|vm_compute; reflexivity]. intros w args H [r E]. apply ConsoleThms.C71_words_proof in H. vm_compute in H. injection H as <- _. discriminate E.
Qed.
@*)

(*@doc C81: the hexadecimal text of an int, of at least eight characters.  The function [hex_width],
which the program has but does not use, gives such texts of 2, 4 or 8 characters, and raises for
all other widths the NameError of a variable that does not exist. @*)
Lemma C81_hex_proof : (forall z, zero_filled 8 (hex8 z) z) /\
  (forall v w, w = 8 \/ w = 16 \/ w = 32 -> exists t, hex_width v w = Ok t /\ zero_filled (w / 4) t v) /\
  (forall v w, w <> 8 -> w <> 16 -> w <> 32 -> hex_width v w = Err NameError).
Proof.
  assert (F : forall w z, zero_filled w (fmt_0x_int w z) z).
  { intros w z. unfold fmt_0x_int, zero_filled. destruct (Z.ltb_spec z 0) as [N|N].
    - exists "-", (fmt_x (- z)). split; [reflexivity|]. split; [rewrite Z.abs_neq by lia; apply fmt_x_canonical; lia|]. reflexivity.
    - exists "", (fmt_x z). split; [reflexivity|]. split; [rewrite Z.abs_eq by lia; apply fmt_x_canonical; lia|]. unfold fmt_0x. change (strlen "") with 0. rewrite Z.sub_0_r. reflexivity. }
  split; [|split].
  - intros z. exact (F 8 z).
  - intros v w [->|[->| ->]]; eexists; (split; [reflexivity|]); apply F.
  - intros v w A B C. unfold hex_width. apply Z.eqb_neq in A, B, C. rewrite A, B, C. reflexivity.
Qed.
(*@ex
Example C81_hex_ex : hex8 (-5) = "-0000005" /\ hex_width 300 8 = Ok "12c" /\ hex_width 10 16 = Ok "000a".
Proof. vm_compute. repeat split; reflexivity. Qed.
@*)

(** What one command can do to the flow of the session. *)
Lemma process_py_flow : forall ev cmd s, exists l, sim_out (fst (process_py ev cmd s)) = sim_out s ++ l /\
  match snd (process_py ev cmd s) with
  | Done _ => True
  | Fail ToolExit => exists w args, spells (w :: args) cmd /\ In (lower w) names_exit
  | Fail SysExit => exists w args, spells (w :: args) cmd /\ In (lower w) names_disasm /\ parse_args args = None
  | Fail (Quit code) => python ev cmd (EvExit code)
  | Fail Interrupt => python ev cmd EvInterrupt
  | Fail _ => False
  end.
Proof.
  intros ev cmd s. unfold process_py. pose proof (C71_goes_on_proof cmd s) as G. pose proof (C69_output_proof cmd s) as [l O].
  destruct (process_command cmd s) as [s' [u|e]]; cbn [fst snd] in *; [exists l; split; [exact O|exact I]|].
  destruct e; cbn [fst snd] in *; try contradiction; try (exists l; split; [exact O|exact G]).
  destruct (handle_python_done ev expr s') as [D [l2 O2]]. rewrite D. exists (l ++ l2). split; [rewrite O2, O; now rewrite <- app_assoc|].
  destruct (snd (ev expr (sim_cpu s'))) eqn:R; cbn [how_ends]; try exact I; (split; [exact G|]); exists expr, (sim_cpu s'); exact R.
Qed.

(** ** Lines *)
Lemma commands_split : forall r, commands (split ";" r) r.
Proof.
  intros r. assert (D : forall n l, (List.length l <= n)%nat -> exists cs, commands cs (of_chars l)).
  { induction n as [|n IH]; intros l L.
    - destruct l; [|cbn in L; lia]. exists [""]. apply commands_last. intros [].
    - assert (E : forall l, no_char ";" (of_chars l) \/ exists a b, l = a ++ ";"%char :: b /\ no_char ";" (of_chars a)).
      { clear. induction l as [|c l [N|(a & b & -> & N)]].
        - left. intros [].
        - destruct (ascii_dec c ";") as [->|C]; [right; exists [], l; split; [reflexivity|intros []]|left]. intros [E|I]; [congruence|now apply N].
        - destruct (ascii_dec c ";") as [->|C]; [right; exists [], (a ++ ";"%char :: b); split; [reflexivity|intros []]|right].
          exists (c :: a), b. split; [reflexivity|]. intros [E|I]; [congruence|now apply N]. }
      destruct (E l) as [N|(a & b & -> & N)]; [exists [of_chars l]; now apply commands_last|].
      destruct (IH b) as [cs H]; [rewrite app_length in L; cbn in L; lia|]. exists (of_chars a :: cs).
      replace (of_chars (a ++ ";"%char :: b)) with (of_chars a +++ String ";" (of_chars b)); [now apply commands_cons|].
      rewrite <- (of_chars_chars (_ +++ _)), chars_app. cbn [chars]. now rewrite !chars_of_chars. }
  destruct (D _ (chars r) (le_n _)) as [cs H]. rewrite of_chars_chars in H. enough (split ";" r = cs) as -> by exact H.
  clear - H. unfold split. induction H as [t N|t ts rest N H IH].
  - rewrite split_on_none; [cbn; now rewrite of_chars_chars|]. apply Forall_forall. intros x I. destruct (Ascii.eqb_spec x ";"); [subst; contradiction|reflexivity].
  - rewrite chars_app. cbn [chars]. rewrite split_on_app; [cbn [map]; now rewrite IH, of_chars_chars|].
    apply Forall_forall. intros x I. destruct (Ascii.eqb_spec x ";"); [subst; contradiction|reflexivity].
Qed.
Lemma split_commands : forall cs r, commands cs r -> split ";" r = cs.
Proof.
  intros cs r H. unfold split. induction H as [t N|t ts rest N H IH].
  - rewrite split_on_none; [cbn; now rewrite of_chars_chars|]. apply Forall_forall. intros x I. destruct (Ascii.eqb_spec x ";"); [subst; contradiction|reflexivity].
  - rewrite chars_app. cbn [chars]. rewrite split_on_app; [cbn [map]; now rewrite IH, of_chars_chars|].
    apply Forall_forall. intros x I. destruct (Ascii.eqb_spec x ";"); [subst; contradiction|reflexivity].
Qed.

(*@doc C81, what the console does with its input: the commands of a line are run in order;
a line that is not blank is remembered; a blank line runs the remembered line as one command;
a KeyboardInterrupt (out of an expression) ends the line, which is then not remembered;
Ctrl-C at the prompt ends the line on the screen and changes nothing else; the end of the
input ends the line and the session. @*)
Lemma C81_lines_proof : forall ev last rest s,
  console_py ev last [] s = print_end s /\
  console_py ev last (CtrlC :: rest) s = (print_end ;; console_py ev last rest) s /\
  (forall line r cs, trims line r -> commands cs r ->
     console_py ev last (Line line :: rest) s =
       match in_order ev cs s with
       | (s', Done _) => console_py ev r rest s'
       | (s', Fail Interrupt) => (print_end ;; console_py ev last rest) s'
       | (s', Fail e) => (s', Fail e)
       end) /\
  (forall line, blank line -> console_py ev last (Line line :: rest) s =
     if String.eqb last "" then console_py ev last rest s else
       match process_py ev last s with
       | (s', Done _) => console_py ev last rest s'
       | (s', Fail Interrupt) => (print_end ;; console_py ev last rest) s'
       | (s', Fail e) => (s', Fail e)
       end).
Proof.
  intros ev last rest s. split; [reflexivity|]. split; [reflexivity|]. split.
  - intros line r cs T C. destruct (trims_strip line r T) as [E N]. cbn [console_py]. rewrite E. apply String.eqb_neq in N. rewrite N.
    unfold process_line_py. rewrite (split_commands cs r C). reflexivity.
  - intros line B. apply blank_strip in B. cbn [console_py]. rewrite B. cbn [String.eqb negb]. destruct (String.eqb last ""); reflexivity.
Qed.
(*@ex
Example C81_lines_ex : on_sim ex_state (fun s => out_text (fst (console_py ex_eval "" [Line " $6 * 7 "; CtrlC; Line " "; Line "$ 6 * 7;r99"] s)) =
  the_line "0x0000002a (42)" +++ the_line "" +++ the_line "0x0000002a (42)" +++ the_line "0x0000002a (42)" +++ the_line "Error: unrecognized command 'r99'" +++ the_line "" /\
  out_text (fst (console_py ex_eval "$6 * 7" [Line "$wait;$6 * 7"; Line ""] s)) = the_line "" +++ the_line "0x0000002a (42)" +++ the_line "").
Proof. vm_compute. split; reflexivity. Qed.
@*)

Lemma seq_py_others : forall ev cs s, Forall not_python cs ->
  in_order ev cs s = fold_right (fun cmd k => process_command cmd ;; k) (sret tt) cs s.
Proof.
  unfold in_order. induction cs as [|cmd cs IH]; intros s F; [reflexivity|]. inversion F as [|? ? N F']; subst. cbn [fold_right]. unfold sbind.
  rewrite (C81_others_proof ev cmd s N). destruct (process_command cmd s) as [s1 [u|e]]; [now apply IH|reflexivity].
Qed.
Lemma seq_uninterrupted : forall cs s, snd (fold_right (fun cmd k => process_command cmd ;; k) (sret tt) cs s) <> Fail Interrupt.
Proof.
  induction cs as [|cmd cs IH]; intros s; [discriminate|]. cbn [fold_right]. unfold sbind. pose proof (C71_goes_on_proof cmd s) as G.
  destruct (process_command cmd s) as [s1 [u|e]]; [apply IH|]. cbn [snd] in *. intros E. injection E as ->. exact G.
Qed.
(*@doc C81: a session without expressions and interruptions is the session of C67-C71. @*)
Lemma C81_same_session_proof : forall ev lines last s, not_python last -> (forall cmd, entered (typed lines) cmd -> not_python cmd) ->
  console_py ev last (typed lines) s = console_run last lines s.
Proof.
  intros ev. induction lines as [|line lines IH]; intros last s NL H; [reflexivity|].
  assert (H' : forall cmd, entered (typed lines) cmd -> not_python cmd).
  { intros cmd (l & r & I & T & C). apply H. exists l, r. split; [now right|]. now split. }
  destruct (C67_lines_proof last s) as [_ [LT [LB DEC]]]. destruct (C81_lines_proof ev last (typed lines) s) as (_ & _ & PT & PB).
  change (typed (line :: lines)) with (Line line :: typed lines). destruct (DEC line) as [B|[r T]].
  - rewrite (LB line lines B), (PB line B). destruct (String.eqb last ""); [now apply IH|]. unfold sbind. rewrite (C81_others_proof ev last s NL).
    pose proof (C71_goes_on_proof last s) as GO. destruct (process_command last s) as [s1 [u|e]]; [now apply IH|]. destruct e; try reflexivity. contradiction.
  - rewrite (LT line r lines T), (PT line r (split ";" r) T (commands_split r)).
    assert (NR : forall cmd, cmd = r \/ In cmd (split ";" r) -> not_python cmd).
    { intros cmd C. apply H. exists line, r. split; [now left|]. split; [exact T|]. destruct C as [->|C]; [now left|right]. exists (split ";" r). split; [apply commands_split|exact C]. }
    rewrite sbind_eq. rewrite seq_py_others by (apply Forall_forall; intros cmd I; apply NR; now right). unfold process_command_line.
    pose proof (seq_uninterrupted (split ";" r) s) as U.
    match goal with |- context [match ?m s with _ => _ end] => destruct (m s) as [s1 [u|e]] end; [|destruct e; try reflexivity; now destruct U]. apply IH; [apply NR; now left|exact H'].
Qed.
(*@ex
Example C81_same_session_ex : on_sim ex_state (fun s => fst (console_py ex_eval "" (typed ["r0; r1"; " "]) s) = fst (console_run "" ["r0; r1"; " "] s)).
Proof. vm_compute. reflexivity. Qed.
@*)

(** An invariant rule for sessions. *)
Lemma seq_py_ind : forall ev (P : sim -> Prop) (Q : sexc -> Prop) cs,
  (forall cmd s, In cmd cs -> P s -> P (fst (process_py ev cmd s)) /\ match snd (process_py ev cmd s) with Done _ => True | Fail e => Q e end) ->
  forall s, P s -> let r := in_order ev cs s in P (fst r) /\ match snd r with Done _ => True | Fail e => Q e end.
Proof.
  intros ev P Q. unfold in_order. induction cs as [|cmd cs IH]; intros H s PS; cbv zeta; cbn [fold_right]; [split; [exact PS|exact I]|].
  destruct (H cmd s (or_introl eq_refl) PS) as [P1 Q1]. unfold sbind. destruct (process_py ev cmd s) as [s1 [u|e]]; cbn [fst snd] in *; [|now split].
  apply IH; [|exact P1]. intros c s2 I. apply H. now right.
Qed.
Lemma console_py_ind : forall ev (P : sim -> Prop) (Q : sexc -> Prop), (forall s, P s -> P (fst (print_end s))) -> forall lines last s,
  (forall cmd s, (cmd = last /\ last <> "") \/ entered lines cmd -> P s -> P (fst (process_py ev cmd s)) /\ match snd (process_py ev cmd s) with Done _ => True | Fail e => Q e end) ->
  P s -> let r := console_py ev last lines s in P (fst r) /\ match snd r with Done _ => True | Fail e => Q e /\ e <> Interrupt end.
Proof.
  intros ev P Q E. induction lines as [|i lines IH]; intros last s H PS; cbv zeta.
  - split; [exact (E s PS)|exact I].
  - assert (SUB : forall cmd, entered lines cmd -> entered (i :: lines) cmd).
    { intros cmd (l & r & IN & T & C). exists l, r. split; [now right|]. now split. }
    destruct i as [line|].
    + destruct (C67_lines_proof last s) as [_ [_ [_ DEC]]]. destruct (C81_lines_proof ev last lines s) as (_ & _ & PT & PB). destruct (DEC line) as [B|[r T]].
      * rewrite (PB line B). destruct (String.eqb_spec last "") as [L|L].
        { apply IH; [|exact PS]. intros cmd s0 [[_ X]|C]; [contradiction|]. apply H. right. now apply SUB. }
        destruct (H last s (or_introl (conj eq_refl L)) PS) as [P1 Q1]. unfold sbind. assert (NX : forall cmd s, (cmd = last /\ last <> "") \/ entered lines cmd -> P s -> P (fst (process_py ev cmd s)) /\ match snd (process_py ev cmd s) with Done _ => True | Fail e => Q e end)
          by (intros cmd s0 [C|C]; apply H; [now left|right; now apply SUB]).
        destruct (process_py ev last s) as [s1 [u|e]]; cbn [fst snd] in *; [apply IH; assumption|].
        destruct e; try (split; [exact P1|split; [exact Q1|discriminate]]). exact (IH last _ NX (E s1 P1)).
      * rewrite (PT line r _ T (commands_split r)).
        assert (EN : forall cmd, cmd = r \/ In cmd (split ";" r) -> entered (Line line :: lines) cmd).
        { intros cmd C. exists line, r. split; [now left|]. split; [exact T|]. destruct C as [->|C]; [now left|right]. exists (split ";" r). split; [apply commands_split|exact C]. }
        destruct (seq_py_ind ev P Q (split ";" r)) with (s := s) as [P1 Q1]; [|exact PS|].
        { intros cmd s0 IN. apply H. right. apply EN. now right. }
        destruct (in_order ev (split ";" r) s) as [s1 [u|e]]; cbn [fst snd] in *.
        2: { destruct e; try (split; [exact P1|split; [exact Q1|discriminate]]). refine (IH last _ _ (E s1 P1)). intros cmd s0 [C|C]; apply H; [now left|right; now apply SUB]. }
        apply IH; [|exact P1]. intros cmd s0 [[-> _]|C]; apply H; right; [apply EN; now left|now apply SUB].
    + destruct (C81_lines_proof ev last lines s) as (_ & PC & _). rewrite PC. unfold sbind. unfold print_end at 1 2. apply IH; [|exact (E s PS)].
      intros cmd s0 [C|C]; apply H; [now left|right; now apply SUB].
Qed.

(*@doc C81: nothing after the end of a session matters: what is typed after a command that
ended it is never read. @*)
Lemma C81_stop_proof : forall ev lines more last s s' e, console_py ev last lines s = (s', Fail e) -> console_py ev last (lines ++ more) s = (s', Fail e).
Proof.
  intros ev. induction lines as [|i lines IH]; intros more last s s' e H; [discriminate H|].
  destruct i as [line|]; cbn [app console_py] in *.
  - destruct (negb (String.eqb (strip line) "")).
    + unfold interruptible, sbind in *. destruct (process_line_py ev (strip line) s) as [s1 [u|x]]; [now apply IH|]. destruct x; try exact H. cbn in *. now apply IH.
    + destruct (negb (String.eqb last "")); [|now apply IH]. unfold interruptible, sbind in *. destruct (process_py ev last s) as [s1 [u|x]]; [now apply IH|]. destruct x; try exact H. cbn in *. now apply IH.
  - unfold sbind in *. destruct (print_end s) as [s1 [u|x]]; [now apply IH|exact H].
Qed.
(*@ex
Example C81_stop_ex : on_sim ex_state (fun s => console_py ex_eval "" [Line "r0;quit;r1"] s = (fst (process_command "r0" s), Fail ToolExit)).
Proof. vm_compute. reflexivity. Qed.
@*)

(** ** The program *)
Lemma program_eq : forall ev t binary lines, bytes binary -> module_tree t ->
  exists s0, sim_start t binary = (s0, Done tt) /\ ready s0 /\ cpu_ok (sim_cpu s0) /\ layout (sim_cpu s0) = [(0, flash_size binary - 1); (ram_start, ram_start + ram_size binary - 1)] /\
  program ev t binary lines = match console_py ev "" lines s0 with
    | (s, Done _) | (s, Fail ToolExit) => (s, Exit 0)
    | (s, Fail (Raised ValueError)) => (fst (print "Error: invalid argument" s), Exit 0)
    | (s, Fail (Tool m)) => (fst ((print_comma "Error:" ;; print m) s), Exit 1)
    | (s, Fail SysExit) => (s, Exit 2)
    | (s, Fail (Quit code)) => (s, Exit code)
    | (s, Fail e) => (s, Uncaught e)
    end.
Proof.
  intros ev t binary lines B M. destruct (C65_start_proof t binary B M) as (s0 & l & E & R & _ & _ & _ & OK & ME & _). exists s0.
  split; [exact E|]. split; [exact R|]. split; [exact OK|]. split; [unfold layout; rewrite ME; reflexivity|].
  unfold sim_start in E. unfold program, tool_run. destruct (create_sim binary) as [c|x]; [|discriminate E].
  unfold sbind. rewrite E. destruct (console_py ev "" lines s0) as [s [u|e]]; [reflexivity|]. destruct e as [[]| | | | | |]; reflexivity.
Qed.

(*@doc C81: for every binary and everything typed the program ends by itself, with status 0,
or with status 2, which needs a disassembly command with bad arguments, or with the status of
a SystemExit, which needs an expression that raises it.  No exception gets out, and no error reaches the handlers at the top. @*)
Lemma C81_status_proof : forall ev t binary lines, bytes binary -> module_tree t ->
  let s0 := fst (sim_start t binary) in let '(s', r) := console_py ev "" lines s0 in
  (program ev t binary lines = (s', Exit 0) /\ (r = Done tt \/ r = Fail ToolExit /\ exists cmd w args, entered lines cmd /\ spells (w :: args) cmd /\ In (lower w) names_exit)) \/
  (program ev t binary lines = (s', Exit 2) /\ r = Fail SysExit /\ exists cmd w args, entered lines cmd /\ spells (w :: args) cmd /\ In (lower w) names_disasm /\ parse_args args = None) \/
  (exists code cmd, program ev t binary lines = (s', Exit code) /\ r = Fail (Quit code) /\ entered lines cmd /\ python ev cmd (EvExit code)).
Proof.
  intros ev t binary lines B M. destruct (program_eq ev t binary lines B M) as (s0 & E & _ & _ & _ & PE). rewrite E. cbn [fst]. cbv zeta.
  set (Q := fun e => match e with
    | ToolExit => exists cmd w args, entered lines cmd /\ spells (w :: args) cmd /\ In (lower w) names_exit
    | SysExit => exists cmd w args, entered lines cmd /\ spells (w :: args) cmd /\ In (lower w) names_disasm /\ parse_args args = None
    | Quit code => exists cmd, entered lines cmd /\ python ev cmd (EvExit code)
    | Interrupt => True
    | _ => False end).
  destruct (console_py_ind ev (fun _ => True) Q (fun _ _ => I) lines "" s0) as [_ F]; [|exact I|].
  { intros cmd s [[_ X]|C] _; [contradiction|]. split; [exact I|]. destruct (process_py_flow ev cmd s) as [_ [_ G]].
    destruct (snd (process_py ev cmd s)) as [u|[]]; try exact I; try contradiction; cbn in *.
    - destruct G as (w & args & G). exists cmd, w, args. now split.
    - destruct G as (w & args & G). exists cmd, w, args. now split.
    - exists cmd. now split. }
  rewrite PE. destruct (console_py ev "" lines s0) as [s [[]|e]]; cbn [snd] in F.
  - left. split; [reflexivity|now left].
  - destruct F as [F NI]. destruct e; try contradiction.
    + left. split; [reflexivity|]. right. now split.
    + right. left. split; [reflexivity|]. now split.
    + right. right. destruct F as (cmd & EN & PY). exists code, cmd. split; [reflexivity|]. split; [reflexivity|]. now split.
Qed.
(*@ex
Example C81_status_ex : match DECODER_TREE with
  | Ok t => let run := fun l => snd (program ex_eval t [] (typed l)) in run [] = Exit 0 /\ run ["bad"; "exit"; "r0"] = Exit 0 /\ run ["disasm -x"; "r0"] = Exit 2 /\ run ["$1/0"] = Exit 0 /\
      run ["r0;$exit(3);quit"] = Exit 3 /\ run ["$wait"] = Exit 0
  | Err _ => False
  end.
Proof. vm_compute. repeat split; reflexivity. Qed.
@*)

(*@doc C81: if what is evaluated keeps the machine valid and the memory map, and no command
writes more than 32 bits into a register, the machine stays valid to the end of the program,
with the memory map of the start.  Missing: [wreg] with larger numbers (C71_wide_refuted). @*)
Lemma C81_sound_partial_proof : forall ev t binary lines, bytes binary -> module_tree t -> decent ev -> (forall cmd, entered lines cmd -> narrow cmd) ->
  let s' := fst (program ev t binary lines) in cpu_ok (sim_cpu s') /\ module_tree (sim_tree s') /\
  layout (sim_cpu s') = [(0, flash_size binary - 1); (ram_start, ram_start + ram_size binary - 1)] /\
  exists l, sim_out s' = sim_out (fst (sim_start t binary)) ++ l.
Proof.
  intros ev t binary lines B M D N. pose proof (C81_status_proof ev t binary lines B M) as ST. cbv zeta in ST.
  destruct (program_eq ev t binary lines B M) as (s0 & E & R & OK & LA & _). rewrite E in *. cbn [fst] in *.
  set (P := fun s => sound s /\ layout (sim_cpu s) = layout (sim_cpu s0) /\ exists l, sim_out s = sim_out s0 ++ l).
  assert (K : P (fst (console_py ev "" lines s0))).
  { apply (console_py_ind ev P (fun _ => True)).
    - intros s (SD & L & l & O). split; [|split; [exact L|]]. { split; [split; [reflexivity|apply SD]|apply SD]. } exists (l ++ [Txt newline]). cbn. rewrite O. symmetry. apply app_assoc.
    - intros cmd s [[_ X]|C] (SD & L & l & O); [contradiction|]. split; [|destruct (snd (process_py ev cmd s)); exact I].
      destruct (C71_sound_partial_proof cmd s SD (N cmd C)) as [S1 L1]. destruct (process_py_flow ev cmd s) as (l1 & O1 & _).
      assert (T : sound (fst (process_py ev cmd s)) /\ layout (sim_cpu (fst (process_py ev cmd s))) = layout (sim_cpu s)).
      { unfold process_py. clear - S1 L1 D. destruct (process_command cmd s) as [s1 [u|e]]; cbn [fst] in S1, L1; [split; assumption|]. destruct e; try (split; assumption).
        rewrite handle_python_ok by apply S1. cbn [fst sim_cpu sim_tree]. destruct (D expr (sim_cpu s1) (proj2 S1)) as [D1 D2]. split; [|rewrite D2; exact L1].
        split; [split; [reflexivity|apply S1]|exact D1]. }
      split; [apply T|]. split; [etransitivity; [apply T|exact L]|]. exists (l ++ l1). rewrite O1, O. now rewrite <- app_assoc.
    - split; [split; assumption|]. split; [reflexivity|]. exists []. symmetry. apply app_nil_r. }
  destruct (console_py ev "" lines s0) as [s r]. cbn [fst] in K. destruct K as [SD [L O]].
  assert (F : fst (program ev t binary lines) = s) by (destruct ST as [[X _]|[[X _]|(code & cmd & X & _)]]; now rewrite X). rewrite F.
  split; [apply SD|]. split; [apply SD|]. split; [now rewrite L|exact O].
Qed.
(*@ex
Example C81_sound_partial_ex : decent ex_eval /\ match DECODER_TREE with
  | Ok t => let s := fst (program ex_eval t [0; 4; 0; 32; 8; 0; 0; 0; 1; 32; 64; 28] [Line "s"; CtrlC; Line ""; Line "$6 * 7"; Line "r0"]) in
      out_text s = the_line "CPU model reset." +++ the_line "PC = 0x00000008" +++ the_line "SP = 0x20000400" +++
        the_line "0x00000008:  2001         movs    r0, #1" +++ the_line "" +++ the_line "0x0000000a:  1c40         adds    r0, r0, #1" +++
        the_line "0x0000002a (42)" +++ the_line "r0 = 0x00000002 (2)" +++ the_line ""
  | Err _ => False
  end.
Proof. split; [intros t c H; unfold ex_eval; repeat (match goal with |- context [if ?b then _ else _] => destruct b end); now split|]. vm_compute. reflexivity. Qed.
@*)
