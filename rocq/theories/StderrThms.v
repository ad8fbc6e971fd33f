(** * Proofs of the statements about standard error *)
From Verif Require Import SimModel ProgramModel ArgsModel StderrModel SpecBits BitFacts BitText SpecCpu CpuFacts SpecDisasm SpecFormat SpecExec SpecIsa SpecSim SpecConsole SpecProg SpecArgs SpecErr SimFacts SimThms ConsoleThms ProgThms ArgsThms.
From Coq Require Import Lia.
Local Open Scope string_scope.
Local Open Scope list_scope.
Local Open Scope Z_scope.
Local Open Scope bool_scope.
(*@imports From Verif Require Import StderrModel SpecBits SpecCpu SpecFormat SpecDisasm SpecExec SpecIsa SpecSim SpecConsole SpecProg SpecArgs SpecErr StderrThms.
From Coq Require Import Lia.
Local Open Scope string_scope.
Local Open Scope list_scope.
Local Open Scope Z_scope.
Local Open Scope bool_scope. @*)

(** ** Commands that write nothing to standard error *)
Definition quiet {A} (m : wact A) (m0 : act A) : Prop := forall w, m w = quietly m0 w.
Lemma quiet_same : forall A (m : act A), quiet (quietly m) m.
Proof. intros A m w. reflexivity. Qed.
Lemma quiet_ret : forall A (a : A), quiet (wret a) (sret a).
Proof. intros A a [s l e]. reflexivity. Qed.
Lemma quiet_bind : forall A B (m : wact A) (m0 : act A) (k : A -> wact B) (k0 : A -> act B),
  quiet m m0 -> (forall a, quiet (k a) (k0 a)) -> quiet (wbind m k) (sbind m0 k0).
Proof.
  intros A B m m0 k k0 HM HK w. unfold wbind. rewrite HM. unfold quietly at 1, quietly, sbind. destruct (m0 (w_sim w)) as [s [a|e]]; [|reflexivity].
  rewrite HK. reflexivity.
Qed.

Lemma register_lower : forall s k, dict_get String.eqb s CORE_REGISTER = Some k -> lower s = s.
Proof.
  intros s k H. apply dict_get_In in H. assert (F : forallb (fun p => String.eqb (lower (fst p)) (fst p)) CORE_REGISTER = true) by (vm_compute; reflexivity).
  rewrite forallb_forall in F. specialize (F _ H). apply String.eqb_eq in F. exact F.
Qed.
Lemma quiet_read : forall s, is_register s = true -> quiet (read_register_err (RName s)) (do* c := the_cpu in slift (read_register c (RName s))).
Proof.
  intros s H w. unfold is_register in H. destruct (dict_get String.eqb s CORE_REGISTER) as [k|] eqn:E; [|discriminate H].
  unfold read_register_err, find_register, read_register, register_name_to_index. rewrite (register_lower s k E), E. destruct w as [s0 l e]. reflexivity.
Qed.
Lemma quiet_ext : forall A (m : wact A) (m0 m1 : act A), (forall s, m0 s = m1 s) -> quiet m m0 -> quiet m m1.
Proof. intros A m m0 m1 E Q w. rewrite Q. unfold quietly. now rewrite E. Qed.
(** Reading a register by a name it has, and going on. *)
Lemma quiet_reading : forall B s (k : bs -> wact B) (k0 : bs -> act B), is_register s = true -> (forall v, quiet (k v) (k0 v)) ->
  quiet (wbind (read_register_err (RName s)) k) (do* c := the_cpu in do* v := slift (read_register c (RName s)) in k0 v).
Proof.
  intros B s k k0 R K. apply (quiet_ext _ _ (sbind (do* c := the_cpu in slift (read_register c (RName s))) k0)).
  - intros x. reflexivity.
  - apply quiet_bind; [now apply quiet_read|exact K].
Qed.
Ltac qb := first [apply quiet_same | apply quiet_ret | apply quiet_bind; [|intros ?]].

Lemma quiet_register_or_int : forall arg, quiet (register_or_int_err arg) (register_or_int arg).
Proof.
  intros arg. unfold register_or_int_err, register_or_int. destruct (is_register arg) eqn:R; [|apply quiet_same].
  apply quiet_reading; [exact R|]. intros v. repeat qb.
Qed.
Lemma quiet_convert : forall arg, quiet (convert_value_err arg) (convert_value arg).
Proof.
  intros arg. unfold convert_value_err, convert_value. destruct (chars _) as [|c l]; [apply quiet_same|].
  apply quiet_bind; [apply quiet_same|]. intros [x offset]. apply quiet_bind; [apply quiet_register_or_int|]. intros v.
  destruct (Ascii.eqb c "["); [apply quiet_same|apply quiet_ret].
Qed.
Lemma quiet_read_cmd : forall args w, quiet (do_read_err args w) (do_read args w).
Proof.
  intros [|a rest] w; [apply quiet_same|]. unfold do_read_err, do_read. apply quiet_bind; [apply quiet_convert|]. intros addr.
  apply quiet_bind; [destruct rest; [apply quiet_ret|apply quiet_convert]|]. intros count. apply quiet_same.
Qed.
Lemma quiet_byte_args : forall args, quiet (byte_args_err args) (byte_args args).
Proof.
  induction args as [|d args IH]; [apply quiet_ret|]. cbn [byte_args_err byte_args]. apply quiet_bind; [apply quiet_convert|]. intros v.
  destruct (byte_ok v); [|apply quiet_same]. apply quiet_bind; [exact IH|]. intros vs. apply quiet_ret.
Qed.
Lemma quiet_write_cmd : forall args w, quiet (do_write_err args w) (do_write args w).
Proof.
  intros [|a rest] w; [apply quiet_same|]. unfold do_write_err, do_write. apply quiet_bind; [apply quiet_convert|]. intros addr.
  destruct rest as [|b rest]; [apply quiet_same|]. apply quiet_bind; [apply quiet_byte_args|]. intros data. apply quiet_same.
Qed.
Lemma quiet_step : forall args, quiet (handle_step_err args) (handle_step args).
Proof.
  intros args. unfold handle_step_err, handle_step. apply (quiet_ext _ _ (do* c := the_cpu in do* c' := the_cpu in do* r := slift (read_register c' (RName "pc")) in
    (let pc := Z.land (bs_unsigned r) (Z.lnot 1) in
    do* code := block pc 4 in
    do* '(ilist, r) := disassemble code pc in
    match r with
    | Err UndefinedInstructionError => print "Undefined instruction"
    | Err e => sfail (Raised e)
    | Ok _ =>
      match ilist with
      | [] => print "No instructions found!"
      | i :: _ =>
        do* '(i, _, text) := slift (format (mkfmt None []) i) in
        print (fmt_addr (i_address i) +++ ":  " +++ text)%string ;;
        let '(s, r) := execute Py2 c i in
        set_cpu (s_cpu s) ;; slift r
      end
    end))).
  - intros s. reflexivity.
  - apply quiet_bind; [apply quiet_same|]. intros c. apply quiet_reading; [reflexivity|]. intros v. apply quiet_same.
Qed.
Lemma quiet_print_disasm : forall code a, quiet (print_disasm_err code a) (print_disasm code a).
Proof. intros code a. unfold print_disasm_err, print_disasm. apply quiet_reading; [reflexivity|]. intros v. apply quiet_same. Qed.
Lemma quiet_disasm : forall args, parse_args args <> None -> quiet (handle_disasm_err args) (handle_disasm args).
Proof.
  intros args P. unfold handle_disasm_err, handle_disasm. destruct (parse_args args) as [[center other]|]; [|now destruct P].
  apply quiet_bind; [apply quiet_convert|]. intros addr. apply quiet_bind.
  { destruct other as [|a [|b other]]; [apply quiet_ret|apply quiet_ret|apply quiet_convert]. }
  intros count. apply quiet_bind; [apply quiet_same|]. intros c.
  match goal with |- context [read_memory_block ?c ?a ?n] => destruct (read_memory_block c a n) end; [apply quiet_print_disasm|apply quiet_same].
Qed.
Lemma quiet_dump_row : forall row n, forallb is_register row = true -> quiet (dump_row_err n row) (dump_row n row).
Proof.
  induction row as [|r row IH]; intros n H; [apply quiet_same|]. cbn [forallb] in H. apply andb_prop in H. destruct H as [H1 H2].
  cbn [dump_row_err dump_row]. apply quiet_reading; [exact H1|]. intros v. apply quiet_bind; [apply quiet_same|]. intros u. now apply IH.
Qed.
Lemma quiet_dump : quiet dump_registers_err dump_registers.
Proof.
  unfold dump_registers_err, dump_registers. assert (F : forallb (forallb is_register) dump_rows = true) by (vm_compute; reflexivity).
  induction dump_rows as [|row rows IH]; [apply quiet_ret|]. cbn [forallb] in F. apply andb_prop in F. destruct F as [F1 F2]. cbn [fold_right].
  apply quiet_bind; [now apply quiet_dump_row|]. intros u. now apply IH.
Qed.
Lemma quiet_reg : forall args, quiet (handle_reg_err args) (handle_reg args).
Proof.
  intros [|a args]; [exact quiet_dump|]. unfold handle_reg_err, handle_reg. destruct (is_register (lower a)) eqn:R; [|apply quiet_same].
  apply quiet_reading; [exact R|]. intros v. apply quiet_same.
Qed.

(** ** Commands that do *)
Lemma levels_eq : forall a, dict_get String.eqb a LEVEL_NUMBERS = level_value a /\ existsb (String.eqb a) LEVELS = match level_value a with Some _ => true | None => false end.
Proof.
  intros a. unfold LEVEL_NUMBERS, LEVELS, level_value. cbn [dict_get existsb].
  destruct (String.eqb a "debug"); [now split|]. destruct (String.eqb a "info"); [now split|]. destruct (String.eqb a "warning"); [now split|].
  destruct (String.eqb a "error"); [now split|]. destruct (String.eqb a "critical"); now split.
Qed.
(** What a handler does to the level and to standard error. *)
Definition does {A} (m : wact A) (m0 : act A) (level : Z -> Z) (notes : Z -> sim -> list note) : Prop :=
  forall w, m w = (mkworld (fst (m0 (w_sim w))) (level (w_level w)) (w_err w ++ notes (w_level w) (w_sim w)), snd (m0 (w_sim w))).
Lemma quiet_does : forall A (m : wact A) m0 level notes, quiet m m0 -> (forall l, level l = l) -> (forall l s, notes l s = []) -> does m m0 level notes.
Proof. intros A m m0 level notes Q L N w. rewrite Q, L, N, app_nil_r. unfold quietly. destruct (m0 (w_sim w)). reflexivity. Qed.

Lemma log_does : forall args, does (handle_log_err args) (handle_log args) (new_level ("log" :: args)) (fun _ _ => []).
Proof.
  intros [|a args]; [apply quiet_does; [apply quiet_same|reflexivity|reflexivity]|]. intros w. unfold handle_log_err, handle_log, new_level.
  change (String.eqb (lower "log") "log") with true. cbv iota. destruct (levels_eq (lower a)) as [-> ->]. rewrite app_nil_r.
  destruct (level_value (lower a)) as [n|]; [reflexivity|]. unfold quietly. destruct ((print_item LevelError;; print_end) (w_sim w)). reflexivity.
Qed.
Lemma wreg_does : forall args, does (handle_write_reg_err args) (handle_write_reg args) (fun l => l) (complaint ("wreg" :: args)).
Proof.
  intros [|a [|v args]]; [apply quiet_does; [apply quiet_same|reflexivity|reflexivity]|apply quiet_does; [apply quiet_same|reflexivity|reflexivity]|].
  intros w. unfold handle_write_reg_err, handle_write_reg, complaint. change (String.eqb (lower "wreg") "wreg") with true. cbn [andb].
  unfold wbind, sbind. rewrite quiet_convert. unfold quietly. destruct (convert_value v (w_sim w)) as [s1 [z|e]]; cbn [fst snd].
  - unfold write_register_err, write_register, find_register, register_name_to_index. rewrite lower_lower.
    destruct (dict_get String.eqb (lower a) CORE_REGISTER) as [k|].
    + unfold wbind, wret, quietly, sbind, the_cpu, set_cpu. cbn [w_sim w_level w_err fst snd sim_cpu]. destruct (w_level w <=? 40); rewrite app_nil_r; reflexivity.
    + unfold wbind, log_error. cbn [w_level]. destruct (w_level w <=? 40); [reflexivity|]. rewrite app_nil_r. reflexivity.
  - destruct (register_name_to_index (RName a)); destruct (w_level w <=? 40); rewrite app_nil_r; reflexivity.
Qed.
Lemma disasm_does : forall args, does (handle_disasm_err args) (handle_disasm args) (fun l => l) (fun _ s => match parse_args args with None => [UsageText] | Some _ => [] end).
Proof.
  intros args. destruct (parse_args args) as [x|] eqn:P.
  - apply quiet_does; [apply quiet_disasm; congruence|reflexivity|reflexivity].
  - intros w. unfold handle_disasm_err, handle_disasm. rewrite P. reflexivity.
Qed.

Lemma new_level_other : forall w args l, lower w <> "log" -> new_level (w :: args) l = l.
Proof. intros w [|a args] l N; [reflexivity|]. unfold new_level. apply String.eqb_neq in N. now rewrite N. Qed.
Lemma complaint_other : forall w args l s, lower w <> "wreg" -> complaint (w :: args) l s = [].
Proof. intros w [|a [|v args]] l s N; [reflexivity|reflexivity|]. unfold complaint. apply String.eqb_neq in N. now rewrite N. Qed.
Lemma new_level_log : forall w args, lower w = "log" -> new_level (w :: args) = new_level ("log" :: args).
Proof. intros w [|a args] E; [reflexivity|]. unfold new_level. rewrite E. reflexivity. Qed.
Lemma complaint_wreg : forall w args, lower w = "wreg" -> complaint (w :: args) = complaint ("wreg" :: args).
Proof. intros w [|a [|v args]] E; [reflexivity|reflexivity|]. unfold complaint. rewrite E. reflexivity. Qed.

(** The usage is written when the parser of options exits. *)
Definition usage (r : sres unit) : list note := match r with Fail SysExit => [UsageText] | _ => [] end.
Lemma no_usage : forall w args cmd s, spells (w :: args) cmd -> ~ starts "$" w -> ~ In (lower w) names_disasm -> usage (snd (dispatch cmd s)) = [].
Proof.
  intros w args cmd s SP N D. pose proof (C71_goes_on_proof cmd s) as G. unfold process_command in G. destruct (dispatch cmd s) as [s' [u|e]]; [reflexivity|].
  destruct e; try reflexivity. cbn [snd] in G. destruct G as (w' & args' & SP' & I & _). exfalso. apply D.
  apply C71_words_proof in SP, SP'. rewrite SP in SP'. now injection SP' as -> ->.
Qed.
Lemma dispatch_does : forall w args cmd, spells (w :: args) cmd -> ~ starts "$" w ->
  does (dispatch_err cmd) (dispatch cmd) (new_level (w :: args)) (fun l s => complaint (w :: args) l s ++ usage (snd (dispatch cmd s))).
Proof.
  intros w args cmd SP N.
  assert (E : forall x, dispatch_err cmd x = (let cmd := lower w in
      if existsb (String.eqb cmd) ["?"; "help"]%string then
        match args with [] => quietly list_commands | _ => wret tt end
      else if is_register cmd then handle_reg_err [cmd]
      else match dict_get String.eqb cmd command_list with
           | None => quietly (print ("Error: unrecognized command '" ++ cmd ++ "'")%string)
           | Some h => run_handler_err h args
           end) x).
  { intros x. destruct (spells_head _ _ _ SP) as [c [r [r' [E E']]]]. pose proof SP as SW. apply C71_words_proof in SW. unfold dispatch_err. rewrite E, SW.
    destruct (ascii_dec c "$") as [->|NC].
    - exfalso. apply N. destruct w as [|a w]; [discriminate E'|]. cbn in E'. injection E' as -> _. now exists w.
    - destruct c as [[] [] [] [] [] [] [] []]; try reflexivity. congruence. }
  assert (D : forall s, dispatch cmd s = run_name (lower w) args s) by (intros s; exact (dispatch_words w args cmd s SP N)).
  assert (EASY : forall m m0, quiet m m0 -> (forall x, dispatch_err cmd x = m x) -> (forall s, run_name (lower w) args s = m0 s) ->
    lower w <> "log" -> lower w <> "wreg" -> ~ In (lower w) names_disasm ->
    does (dispatch_err cmd) (dispatch cmd) (new_level (w :: args)) (fun l s => complaint (w :: args) l s ++ usage (snd (dispatch cmd s)))).
  { intros m m0 Q M M0 L W DI. apply quiet_does.
    - intros x. rewrite M, Q. unfold quietly. rewrite D, M0. reflexivity.
    - intros l. now apply new_level_other.
    - intros l s. rewrite complaint_other by exact W. rewrite (no_usage w args cmd s SP N DI). reflexivity. }
  cbv zeta in E. unfold run_name in D, EASY.
  destruct (existsb (String.eqb (lower w)) ["?"; "help"]) eqn:H.
  { assert (OR : lower w = "?" \/ lower w = "help").
    { cbn [existsb] in H. destruct (String.eqb_spec (lower w) "?"); [now left|]. destruct (String.eqb_spec (lower w) "help"); [now right|discriminate H]. }
    apply (EASY _ (match args with [] => list_commands | _ => sret tt end)) with (2 := E); [destruct args; [apply quiet_same|apply quiet_ret]|reflexivity| | |];
      (destruct OR as [-> | ->]; [try discriminate|try discriminate]; intros X; vm_compute in X; intuition discriminate). }
  destruct (is_register (lower w)) eqn:R.
  { assert (NX : forall x, is_register x = false -> lower w <> x) by (intros x F EQ; rewrite EQ in R; congruence).
    apply (EASY _ (handle_reg [lower w])) with (2 := E); [apply quiet_reg|reflexivity|apply NX; reflexivity|apply NX; reflexivity|].
    intros [X|[X|[]]]; symmetry in X; revert X; apply NX; reflexivity. }
  destruct (dict_get String.eqb (lower w) command_list) as [h|] eqn:G.
  2: { assert (NX : forall x h, dict_get String.eqb x command_list = Some h -> lower w <> x) by (intros x h F EQ; rewrite EQ in G; congruence).
    apply (EASY _ _ (quiet_same _ _) E); [reflexivity|eapply NX; reflexivity|eapply NX; reflexivity|].
    intros [X|[X|[]]]; symmetry in X; revert X; eapply NX; reflexivity. }
  assert (NX : forall x h', dict_get String.eqb x command_list = Some h' -> h <> h' -> lower w <> x) by (intros x h' F NH EQ; rewrite EQ in G; congruence).
  assert (ND : h <> HDisasm -> ~ In (lower w) names_disasm).
  { intros NH [X|[X|[]]]; symmetry in X; revert X; eapply NX; try reflexivity; exact NH. }
  destruct h as [| | | |wd|wd| | | | |];
    try (eapply EASY; [|exact E|intros s; reflexivity|eapply NX; [reflexivity|discriminate]|eapply NX; [reflexivity|discriminate]|apply ND; discriminate];
         cbn [run_handler_err run_handler]; first [apply quiet_same|apply quiet_reg|apply quiet_read_cmd|apply quiet_write_cmd|apply quiet_step]).
  - (* wreg *)
    assert (LW : lower w = "wreg").
    { clear - G. apply dict_get_In in G. cbn [command_list In] in G. repeat (destruct G as [X|G]; [first [discriminate X|injection X as ->; reflexivity]|]). destruct G. }
    intros x. rewrite E. cbn [run_handler_err]. rewrite (wreg_does args x). rewrite D. cbn [run_handler].
    rewrite (complaint_wreg w args LW), new_level_other by (rewrite LW; discriminate).
    pose proof (no_usage w args cmd (w_sim x) SP N) as U. rewrite D in U. cbn [run_handler] in U. rewrite U by (rewrite LW; intros X; vm_compute in X; intuition discriminate). rewrite app_nil_r. reflexivity.
  - (* disasm *)
    intros x. rewrite E. cbn [run_handler_err]. rewrite (disasm_does args x). rewrite D. cbn [run_handler].
    rewrite complaint_other by (eapply NX; [reflexivity|discriminate]). rewrite new_level_other by (eapply NX; [reflexivity|discriminate]).
    assert (U : usage (snd (handle_disasm args (w_sim x))) = match parse_args args with None => [UsageText] | Some _ => [] end).
    { destruct (parse_args args) eqn:P; [|unfold handle_disasm; rewrite P; reflexivity].
      pose proof (C71_goes_on_proof cmd (w_sim x)) as GO. unfold process_command in GO. rewrite D in GO. cbn [run_handler] in GO.
      destruct (handle_disasm args (w_sim x)) as [s' [u|e]]; [reflexivity|]. destruct e; try reflexivity. cbn [snd] in GO. destruct GO as (w' & args' & SP' & _ & PN). exfalso.
      apply C71_words_proof in SP, SP'. rewrite SP in SP'. injection SP' as -> ->. congruence. }
    rewrite U. reflexivity.
  - (* log *)
    assert (LW : lower w = "log").
    { clear - G. apply dict_get_In in G. cbn [command_list In] in G. repeat (destruct G as [X|G]; [first [discriminate X|injection X as ->; reflexivity]|]). destruct G. }
    intros x. rewrite E. cbn [run_handler_err]. rewrite (log_does args x). rewrite D. cbn [run_handler].
    rewrite (new_level_log w args LW), complaint_other by (rewrite LW; discriminate).
    pose proof (no_usage w args cmd (w_sim x) SP N) as U. rewrite D in U. cbn [run_handler] in U. rewrite U by (rewrite LW; intros X; vm_compute in X; intuition discriminate). reflexivity.
Qed.

(** ** Commands *)
(*@doc C98: what a command other than an expression does with a log level and standard
error.  It does what it does without them, to the machine and to standard output.  Only log,
with the name of a level, changes the level.  Only wreg logs something: a name that no
register has, unless the level is critical.  A traceback follows if the command raised an
exception, and a disassembly command whose options are wrong writes the usage. @*)
Lemma C98_stderr_command_proof : forall ev sd cmd ws s level err, spells ws cmd -> not_python cmd ->
  process_err ev sd cmd (mkworld s level err) =
    (mkworld (fst (process_command cmd s)) (new_level ws level) (err ++ complaint ws level s ++ trouble (snd (dispatch cmd s))), snd (process_command cmd s)).
Proof.
  intros ev sd cmd ws s level err SP NP.
  assert (D : dispatch_err cmd (mkworld s level err) = (mkworld (fst (dispatch cmd s)) (new_level ws level) (err ++ complaint ws level s ++ usage (snd (dispatch cmd s))), snd (dispatch cmd s))).
  { destruct ws as [|w args].
    - apply C71_words_proof in SP. unfold dispatch_err, dispatch. rewrite SP. cbn [new_level complaint app].
      assert (B : chars (strip cmd) = []).
      { apply C71_words_proof in SP. inversion SP as [x BL E1 E2| |]. subst. apply blank_strip in BL. now rewrite BL. }
      rewrite B. cbn [usage snd quietly sfail w_sim w_level w_err fst]. rewrite app_nil_r. reflexivity.
    - rewrite (dispatch_does w args cmd SP (NP w args SP)). cbn [w_sim w_level w_err]. reflexivity. }
  assert (NE : forall e, snd (dispatch cmd s) <> Fail (Eval e)).
  { intros e E. pose proof (C71_goes_on_proof cmd s) as G. unfold process_command in G. destruct (dispatch cmd s) as [s' r]. cbn [snd] in E. subst r. destruct G as (w & args & SP' & ST). exact (NP w args SP' ST). }
  unfold process_err, process_command. rewrite D. destruct (dispatch cmd s) as [s' [u|e]]; cbn [fst snd usage trouble]; [reflexivity|]. cbn [snd] in NE.
  destruct e as [x| | | | | |]; cbn [usage trouble]; rewrite ?app_nil_r; try reflexivity.
  - assert (Q : forall m n lv er, snd (m s') = Done tt -> (quietly m ;;; write_note n) (mkworld s' lv er) = (mkworld (fst (m s')) lv (er ++ [n]), snd (m s'))).
    { intros m n lv er DN. unfold wbind, quietly. cbn [w_sim w_level w_err]. destruct (m s') as [s1 r]. cbn [snd] in DN. subst r. reflexivity. }
    destruct x; cbn [usage trouble] in *; rewrite Q by (destruct s'; reflexivity); rewrite ?app_nil_r, <- ?app_assoc; destruct (print "Error: invalid argument" s'); reflexivity.
  - now destruct (NE expr).
Qed.
(*@ex
Example C98_stderr_command_ex : spells ["wreg"; "R99"; "5"] "wreg R99 5" /\ on_world 30 (fun w =>
  w_err (fst (process_err ex_eval ex_side "wreg R99 5" w)) = [LogLine "ERROR:root:cannot find r99 core register"] /\
  w_err (fst ((process_err ex_eval ex_side "log critical" ;;; process_err ex_eval ex_side "wreg r99 5") w)) = [] /\
  w_err (fst (process_err ex_eval ex_side "rb zz" w)) = [Trace (Raised ValueError)] /\
  w_err (fst (process_err ex_eval ex_side "d --x" w)) = [UsageText]).
Proof. split; [apply ConsoleThms.C71_words_proof; vm_compute; reflexivity|]. vm_compute. repeat split; reflexivity. Qed.
@*)

Lemma python_err : forall ev sd e w, handle_python_err ev sd e w =
  (mkworld (fst (handle_python ev e (w_sim w))) (fst (sd e (sim_cpu (w_sim w)) (w_level w)))
     (w_err w ++ snd (sd e (sim_cpu (w_sim w)) (w_level w)) ++ expr_trouble (snd (ev e (sim_cpu (w_sim w))))), snd (handle_python ev e (w_sim w))).
Proof.
  intros ev sd e [s l er]. unfold handle_python_err, wbind, side_err. unfold quietly at 1. unfold the_cpu. cbn [w_sim w_level w_err].
  destruct (sd e (sim_cpu s) l) as [l' notes]. cbn [fst snd]. unfold quietly. cbn [w_sim w_level w_err].
  pose proof (handle_python_done ev e s) as [E _]. destruct (handle_python ev e s) as [s' r]. cbn [fst snd] in *. subst r.
  destruct (snd (ev e (sim_cpu s))); cbn [how_ends expr_trouble]; unfold wret, write_note; cbn [w_sim w_level w_err]; rewrite ?app_nil_r, <- ?app_assoc; reflexivity.
Qed.
(*@doc C98: an expression may change the level and write to standard error in any way; a
traceback follows if it raised an exception.  The rest is what it does without these.  As in
C81, the first character is dropped, which is a dollar sign if there is no white space in
front of it. @*)
Lemma C98_stderr_python_proof : forall ev sd c rest v args e s level err, spells (v :: args) (String c rest) -> starts "$" v -> trims rest e \/ blank rest /\ e = "" ->
  process_err ev sd (String c rest) (mkworld s level err) =
    (mkworld (fst (process_py ev (String c rest) s)) (fst (sd e (sim_cpu s) level)) (err ++ snd (sd e (sim_cpu s) level) ++ expr_trouble (snd (ev e (sim_cpu s)))),
     snd (process_py ev (String c rest) s)).
Proof.
  intros ev sd c rest v args e s level err SP [r ->] T.
  assert (TE : strip rest = e). { destruct T as [T|[B ->]]; [exact (proj1 (trims_strip _ _ T))|now apply blank_strip]. }
  destruct (spells_head _ _ _ SP) as [c1 [r1 [r' [E E']]]]. injection E' as <- _.
  unfold process_py, process_err. rewrite (process_dollar r1 (chars (String c rest)) (String c rest) s E eq_refl). cbn [chars List.tl]. rewrite of_chars_chars, TE.
  unfold dispatch_err. rewrite E. cbn [chars List.tl]. rewrite of_chars_chars, TE. unfold quietly, sfail. cbn [w_sim w_level w_err]. rewrite python_err. reflexivity.
Qed.
(*@ex
Example C98_stderr_python_ex : on_world 30 (fun w =>
  w_err (fst (process_err ex_eval ex_side "$ 6 * 7" w)) = [] /\ w_err (fst (process_err ex_eval ex_side "$x" w)) = [Trace (Raised NameError)] /\
  w_err (fst ((process_err ex_eval (fun t c l => (50, [LogLine t])) "$x" ;;; process_err ex_eval ex_side "wreg r99 5") w)) = [LogLine "x"; Trace (Raised NameError)]).
Proof. vm_compute. repeat split; reflexivity. Qed.
@*)

(** ** Sessions *)
(*@doc C98: the console with a log level and standard error treats lines as without them
(C81_lines). @*)
Lemma C98_stderr_lines_proof : forall ev sd last rest w,
  console_err ev sd last [] w = quietly print_end w /\
  console_err ev sd last (CtrlC :: rest) w = (quietly print_end ;;; console_err ev sd last rest) w /\
  (forall line r cs, trims line r -> commands cs r ->
     console_err ev sd last (Line line :: rest) w =
       match in_order_err ev sd cs w with
       | (w', Done _) => console_err ev sd r rest w'
       | (w', Fail Interrupt) => (quietly print_end ;;; console_err ev sd last rest) w'
       | (w', Fail e) => (w', Fail e)
       end) /\
  (forall line, blank line -> console_err ev sd last (Line line :: rest) w =
     if String.eqb last "" then console_err ev sd last rest w else
       match process_err ev sd last w with
       | (w', Done _) => console_err ev sd last rest w'
       | (w', Fail Interrupt) => (quietly print_end ;;; console_err ev sd last rest) w'
       | (w', Fail e) => (w', Fail e)
       end).
Proof.
  intros ev sd last rest w. split; [reflexivity|]. split; [reflexivity|]. split.
  - intros line r cs T C. destruct (trims_strip line r T) as [E N]. cbn [console_err]. rewrite E. apply String.eqb_neq in N. rewrite N.
    unfold process_line_err. rewrite (split_commands cs r C). reflexivity.
  - intros line B. apply blank_strip in B. cbn [console_err]. rewrite B. cbn [String.eqb negb]. destruct (String.eqb last ""); reflexivity.
Qed.
(*@ex
Example C98_stderr_lines_ex : on_world 30 (fun w =>
  w_err (fst (console_err ex_eval ex_side "" [Line "wreg r99 5; log critical; wreg r98 1"; Line "log error"; Line "wreg r97 1"; Line ""; Line "$wait; wreg r96 1"] w)) =
  [LogLine (unknown_text "r99"); LogLine (unknown_text "r97"); LogLine (unknown_text "r97")]).
Proof. vm_compute. reflexivity. Qed.
@*)

(** [m] does with a level and standard error what [m0] does without. *)
Definition tracks {A} (m : wact A) (m0 : act A) : Prop := forall w, w_sim (fst (m w)) = fst (m0 (w_sim w)) /\ snd (m w) = snd (m0 (w_sim w)).
Lemma tracks_quiet : forall A (m : act A), tracks (quietly m) m.
Proof. intros A m w. unfold quietly. destruct (m (w_sim w)). split; reflexivity. Qed.
Lemma tracks_bind : forall A B (m : wact A) m0 (k : A -> wact B) k0, tracks m m0 -> (forall a, tracks (k a) (k0 a)) -> tracks (wbind m k) (sbind m0 k0).
Proof.
  intros A B m m0 k k0 T K w. destruct (T w) as [T1 T2]. unfold wbind, sbind. destruct (m w) as [w' r], (m0 (w_sim w)) as [s' r0]. cbn [fst snd] in *. subst r0 s'.
  destruct r as [a|e]; [apply K|split; reflexivity].
Qed.
Lemma tracks_process : forall ev sd cmd, tracks (process_err ev sd cmd) (process_py ev cmd).
Proof.
  intros ev sd cmd [s l er].
  destruct (SimModel.words cmd) as [|v args] eqn:SP; apply C71_words_proof in SP.
  - assert (NP : not_python cmd) by (intros w a SP'; apply C71_words_proof in SP, SP'; congruence).
    rewrite (C98_stderr_command_proof ev sd cmd [] s l er SP NP), (C81_others_proof ev cmd) by exact NP. split; reflexivity.
  - assert (DEC : starts "$" v \/ ~ starts "$" v).
    { destruct v as [|c v]; [right; intros [r X]; discriminate|]. destruct (ascii_dec c "$") as [->|N]; [left; now exists v|right; intros [r X]; injection X as -> _; now apply N]. }
    destruct DEC as [ST|NS].
    + destruct cmd as [|c rest]; [exfalso; apply C71_words_proof in SP; discriminate SP|]. destruct (C67_lines_proof "" s) as (_ & _ & _ & D).
      assert (X : exists e, trims rest e \/ blank rest /\ e = "") by (destruct (D rest) as [B|[e T]]; [exists ""; right; now split|exists e; now left]).
      destruct X as [e X]. rewrite (C98_stderr_python_proof ev sd c rest v args e s l er SP ST X). split; reflexivity.
    + assert (NP : not_python cmd). { intros w a SP'. apply C71_words_proof in SP, SP'. rewrite SP in SP'. injection SP' as <- <-. exact NS. }
      rewrite (C98_stderr_command_proof ev sd cmd _ s l er SP NP), (C81_others_proof ev cmd) by exact NP. split; reflexivity.
Qed.
Lemma tracks_line : forall ev sd cs, tracks (fold_right (fun cmd k => process_err ev sd cmd ;;; k) (wret tt) cs) (fold_right (fun cmd k => process_py ev cmd ;; k) (sret tt) cs).
Proof.
  intros ev sd cs. induction cs as [|cmd cs IH]; cbn [fold_right]; [intros w; split; reflexivity|]. apply tracks_bind; [apply tracks_process|intros _; exact IH].
Qed.
Lemma tracks_inter : forall m m0 k k0 k' k0', tracks m m0 -> tracks k k0 -> tracks k' k0' -> tracks (interruptible_err m k k') (interruptible m0 k0 k0').
Proof.
  intros m m0 k k0 k' k0' T K K' w. destruct (T w) as [T1 T2]. unfold interruptible_err, interruptible. destruct (m w) as [w' r], (m0 (w_sim w)) as [s' r0]. cbn [fst snd] in *. subst r0 s'.
  destruct r as [a|e]; [apply K|]. destruct e; try (split; reflexivity). exact (tracks_bind _ _ _ _ _ _ (tracks_quiet _ print_end) (fun _ => K') w').
Qed.
Lemma tracks_console : forall ev sd lines last, tracks (console_err ev sd last lines) (console_py ev last lines).
Proof.
  intros ev sd. induction lines as [|[line|] lines IH]; intros last; cbn [console_err console_py].
  - apply tracks_quiet.
  - destruct (negb (String.eqb (strip line) "")); [apply tracks_inter; [apply tracks_line|apply IH|apply IH]|].
    destruct (negb (String.eqb last "")); [apply tracks_inter; [apply tracks_process|apply IH|apply IH]|apply IH].
  - apply tracks_bind; [apply tracks_quiet|intros _; apply IH].
Qed.
Lemma tracks_run : forall k k0 t d level, tracks k k0 -> let '(w, r) := tool_run_err k t d level in (w_sim w, r) = tool_run k0 t d.
Proof.
  intros k k0 t d level T. unfold tool_run_err, tool_run. destruct (create_sim d) as [c|x].
  - destruct (tracks_bind _ _ _ _ _ _ (tracks_quiet _ reset_sim) (fun _ => T) (mkworld (mksim c t [] false) level [])) as [T1 T2]. cbn [w_sim] in *.
    destruct ((quietly reset_sim ;;; k) (mkworld (mksim c t [] false) level [])) as [w r], ((reset_sim ;; k0) (mksim c t [] false)) as [s r0]. cbn [fst snd] in *. subst r0 s.
    destruct r as [u|e]; [reflexivity|]. destruct w as [[c' t' o so] l er]. destruct e as [x| | | | | |]; try reflexivity. destruct x; reflexivity.
  - destruct x; reflexivity.
Qed.
(*@doc C98: the log level and what goes to standard error make no difference to how the
program ends, to the machine and to standard output; this is the program of C81 and of the
statements above. @*)
Lemma C98_stderr_same_proof : forall ev sd t fs argv lines, fst (main_err ev sd t fs argv lines) = main ev t fs argv lines.
Proof.
  intros ev sd t fs argv lines. unfold main_err, main.
  assert (R : forall k k0 d n, tracks k k0 -> fst (let '(w, r) := tool_run_err k t d n in (Ran (w_sim w) r, w_err w)) = let '(s, r) := tool_run k0 t d in Ran s r).
  { intros k k0 d n T. pose proof (tracks_run k k0 t d n T) as E. destruct (tool_run_err k t d n) as [w r]. rewrite <- E. reflexivity. }
  destruct (get_args fs argv) as [[level|] [[d|]|]| | | |x].
  - apply R, tracks_console.
  - destruct (typed_bytes lines) as [d|]; [|reflexivity]. apply R, tracks_quiet.
  - apply R, tracks_console.
  - reflexivity.
  - destruct (typed_bytes lines); reflexivity.
  - reflexivity.
  - reflexivity.
  - reflexivity.
  - reflexivity.
  - reflexivity.
Qed.
(*@ex
Example C98_stderr_same_ex : match DECODER_TREE with
  | Ok t => match main_err ex_eval ex_side t ex_files ["a.bin"] [Line "wreg r99 5"; Line "s"; Line "r0"] with
            | (Ran s (Exit 0), err) => reg (sim_cpu s) 0 = 1 /\ err = [LogLine (unknown_text "r99")]
            | _ => False
            end
  | Err _ => False
  end.
Proof. vm_compute. split; reflexivity. Qed.
@*)

(** ** The program *)
Lemma asked_known : forall it argv, command_line it argv -> forall o level, (forall x, o = Some x -> In x the_levels) -> level_asked o it = Some level -> In level the_levels.
Proof.
  intros it argv CL. induction CL as [| |n|n F|n it argv F CL IH|v a it argv V A CL IH|v w it argv V J CL IH|w it argv J CL IH]; intros o level D E; try exact (D _ E).
  - exact (IH o level D E).
  - apply (IH (Some v) level); [|exact E]. intros x X. injection X as <-. exact V.
  - apply (IH (Some v) level); [|exact E]. intros x X. injection X as <-. exact V.
  - apply (IH None level); [|exact E]. intros x X. discriminate X.
Qed.
Lemma level_known : forall l, In l the_levels -> level_value l = Some (configured l).
Proof. intros l I. cbn [the_levels In] in I. repeat (destruct I as [<-|I]; [reflexivity|]). destruct I. Qed.
Lemma run_start : forall k k0 t d level s, tracks k k0 -> sim_start t d = (s, Done tt) -> (forall e, snd (tool_run k0 t d) <> Uncaught e) ->
  w_err (fst (tool_run_err k t d level)) = w_err (fst (k (mkworld s level []))).
Proof.
  intros k k0 t d level s T S NU. pose proof (tracks_run k k0 t d level T) as E. unfold sim_start in S. unfold tool_run_err in *. destruct (create_sim d) as [c|x]; [|discriminate S].
  assert (ST : (quietly reset_sim ;;; k) (mkworld (mksim c t [] false) level []) = k (mkworld s level [])).
  { unfold wbind, quietly. cbn [w_sim w_level w_err]. rewrite S. reflexivity. }
  rewrite ST in *. destruct (k (mkworld s level [])) as [w r]. cbn [fst]. destruct (tool_run k0 t d) as [s1 r1]. cbn [snd] in NU.
  destruct r as [u|e]; [reflexivity|]. destruct e as [x| | | | | |]; try reflexivity; try (exfalso; injection E as _ E; symmetry in E; exact (NU _ E)).
  destruct x; try reflexivity; exfalso; injection E as _ E; symmetry in E; exact (NU _ E).
Qed.
(*@doc C98: standard error of the simulator is that of its console (C98_stderr_lines), which
starts with the level asked for last, or with warning. @*)
Lemma C98_stderr_run_proof : forall ev sd t fs argv lines it level d, module_tree t -> bytes d -> command_line it argv -> level_asked (Some "warning") it = Some level ->
  ((slots it = [] \/ slots it = [None]) /\ d = []) \/ (exists name, slots it = [Some name] /\ name <> "-" /\ fs name = Some d) ->
  exists s n, sim_start t d = (s, Done tt) /\ level_value level = Some n /\
    snd (main_err ev sd t fs argv lines) = w_err (fst (console_err ev sd "" lines (mkworld s n []))).
Proof.
  intros ev sd t fs argv lines it level d M B CL LV F. destruct (program_eq ev t d lines B M) as (s & S & _). exists s, (configured level). split; [exact S|]. split.
  { apply level_known. apply (asked_known it argv CL (Some "warning") level); [|exact LV]. intros x X. injection X as <-. vm_compute. tauto. }
  assert (G : get_args fs argv = PArgs (Some level) None /\ d = [] \/ get_args fs argv = PArgs (Some level) (Some (FromFile d))).
  { destruct F as [[F ->]|(name & F & N & D)].
    - left. split; [|reflexivity]. apply C98_arguments_proof. exists it. split; [exact CL|]. split; [now rewrite LV|]. left. auto.
    - right. apply C98_arguments_proof. exists it. split; [exact CL|]. split; [now rewrite LV|]. right. right. exists name, d. auto. }
  assert (R : snd (let '(w, r) := tool_run_err (console_err ev sd "" lines) t d (configured level) in (Ran (w_sim w) r, w_err w)) = w_err (fst (console_err ev sd "" lines (mkworld s (configured level) [])))).
  { rewrite <- (run_start _ (console_py ev "" lines) t d (configured level) s (tracks_console ev sd lines "") S).
    - destruct (tool_run_err _ t d _). reflexivity.
    - intros e X. pose proof (C81_status_proof ev t d lines B M) as ST. cbv zeta in ST. destruct (console_py ev "" lines (fst (sim_start t d))) as [s' r]. fold (program ev t d lines) in X.
      destruct ST as [[ST _]|[[ST _]|(code & cmd & ST & _)]]; rewrite ST in X; discriminate X. }
  unfold main_err. destruct G as [[-> ->]| ->]; exact R.
Qed.
(*@ex
Example C98_stderr_run_ex : command_line [Binary "a.bin"; SetLevel (Some "critical")] ["a.bin"; "-dcritical"] /\
  match DECODER_TREE with
  | Ok t => snd (main_err ex_eval ex_side t ex_files ["a.bin"; "-dcritical"] [Line "wreg r99 5"; Line "log info"; Line "wreg r98 5"]) = [LogLine (unknown_text "r98")]
  | Err _ => False
  end.
Proof.
  split; [|vm_compute; reflexivity].
  apply cl_file; [left; intros [r X]; discriminate|]. apply (cl_joined "critical"); [vm_compute; tauto| |constructor]. left. split; [reflexivity|]. split; [discriminate|]. intros [r X]. discriminate.
Qed.
@*)

(*@doc C98: standard error when the console is not reached: the version and the words of the
parser of arguments go there, the help does not, and an exception that is not caught leaves its
traceback; nothing is written if the binary is standard input. @*)
Lemma C98_stderr_ends_proof : forall ev sd t fs argv lines, module_tree t -> (forall n d, fs n = Some d -> bytes d) ->
  let err := snd (main_err ev sd t fs argv lines) in
  match main ev t fs argv lines with
  | Helped => err = []
  | Versioned => err = [VersionText]
  | Misused => err = [UsageText]
  | Interrupted => err = [Trace Interrupt]
  | Ran _ (Uncaught e) => err = [Trace e]
  | Ran _ (Exit _) => forall it, command_line it argv -> slots it = [Some "-"] -> err = []
  end.
Proof.
  intros ev sd t fs argv lines M B err. subst err.
  destruct (get_args fs argv) as [[level|] file| | | |x] eqn:G; cycle 1; [| unfold main, main_err; rewrite G; reflexivity..|].
  { unfold main, main_err. rewrite G. destruct file as [[d|]|]; [reflexivity| |reflexivity]. destruct (typed_bytes lines); reflexivity. }
  assert (U : forall it, command_line it argv -> slots it = [Some "-"] -> file = Some FromStdin).
  { intros it CL S. assert (X : get_args fs argv = PArgs (level_asked (Some "warning") it) (Some FromStdin)).
    { apply C98_arguments_proof. exists it. split; [exact CL|]. split; [reflexivity|]. right. left. auto. }
    rewrite G in X. now injection X. }
  pose proof (C98_ends_partial_proof ev t fs argv lines M B) as EN. pose proof (main_args ev t fs argv lines level file G) as MA.
  destruct file as [[d|]|].
  - rewrite MA in *. destruct (program ev t d lines) as [s [z|e]] eqn:P; unfold ran in *; cbn [fst snd] in *; [intros it CL S; discriminate (U it CL S)|].
    exfalso. apply C98_arguments_proof in G. destruct G as (it & CL & LV & O). destruct O as [[_ O]|[[_ O]|(n & d' & _ & _ & F & O)]]; try discriminate O. injection O as ->.
    pose proof (C81_status_proof ev t d' lines (B n d' F) M) as ST. cbv zeta in ST. destruct (console_py ev "" lines (fst (sim_start t d'))) as [s' r].
    destruct ST as [[ST _]|[[ST _]|(code & cmd & ST & _)]]; rewrite ST in P; discriminate P.
  - rewrite MA. unfold main_err. rewrite G. destruct (typed_bytes lines) as [d|] eqn:T; [|reflexivity].
    destruct (program_eq ev t d lines (typed_ok lines d T) M) as (s & S & _). unfold sim_start in S. unfold ran, tool_run, tool_run_err. destruct (create_sim d) as [c|x]; [|discriminate S].
    unfold sbind, wbind. unfold quietly at 1. cbn [w_sim w_level w_err]. rewrite S. cbn [snd]. intros it CL SL. reflexivity.
  - rewrite MA in *. destruct (program ev t [] lines) as [s [z|e]] eqn:P; unfold ran in *; cbn [fst snd] in *; [intros it CL S; discriminate (U it CL S)|].
    exfalso. pose proof (C81_status_proof ev t [] lines (Forall_nil _) M) as ST. cbv zeta in ST. destruct (console_py ev "" lines (fst (sim_start t []))) as [s' r].
    destruct ST as [[ST _]|[[ST _]|(code & cmd & ST & _)]]; rewrite ST in P; discriminate P.
Qed.
(*@ex
Example C98_stderr_ends_ex : forall t, map (fun a => snd (main_err ex_eval ex_side t ex_files a [Line "x"])) [["-h"]; ["--version"]; ["-x"]; ["-h="]; ["-d--"]] =
  [[]; [VersionText]; [UsageText]; [Trace (Raised IndexError)]; [Trace (Raised TypeError)]] /\
  snd (main_err ex_eval ex_side t ex_files ["-"] [CtrlC]) = [Trace Interrupt].
Proof. intros t. split; reflexivity. Qed.
@*)

(** An invariant rule for sessions. *)
Lemma seq_err_ind : forall ev sd (P : world -> Prop) cs, (forall cmd w, In cmd cs -> P w -> P (fst (process_err ev sd cmd w))) -> forall w, P w -> P (fst (in_order_err ev sd cs w)).
Proof.
  intros ev sd P. unfold in_order_err. induction cs as [|cmd cs IH]; intros H w PW; cbn [fold_right]; [exact PW|]. pose proof (H cmd w (or_introl eq_refl) PW) as P1.
  unfold wbind. destruct (process_err ev sd cmd w) as [w1 [u|e]]; cbn [fst] in *; [|exact P1]. apply IH; [|exact P1]. intros c w2 I. apply H. now right.
Qed.
Lemma console_err_ind : forall ev sd (P : world -> Prop), (forall w, P w -> P (fst (quietly print_end w))) -> forall lines last w,
  (forall cmd w, (cmd = last /\ last <> "") \/ entered lines cmd -> P w -> P (fst (process_err ev sd cmd w))) -> P w -> P (fst (console_err ev sd last lines w)).
Proof.
  intros ev sd P E. induction lines as [|i lines IH]; intros last w H PW; [exact (E w PW)|].
  assert (SUB : forall cmd, entered lines cmd -> entered (i :: lines) cmd).
  { intros cmd (l & r & IN & T & C). exists l, r. split; [now right|]. now split. }
  assert (NX : forall cmd w, (cmd = last /\ last <> "") \/ entered lines cmd -> P w -> P (fst (process_err ev sd cmd w))) by (intros cmd w0 [C|C]; apply H; [now left|right; now apply SUB]).
  destruct (C98_stderr_lines_proof ev sd last lines w) as (_ & PC & PT & PB). destruct i as [line|].
  - destruct (C67_lines_proof last (w_sim w)) as [_ [_ [_ DEC]]]. destruct (DEC line) as [B|[r T]].
    + rewrite (PB line B). destruct (String.eqb_spec last "") as [L|L]; [now apply IH|].
      pose proof (H last w (or_introl (conj eq_refl L)) PW) as P1. destruct (process_err ev sd last w) as [w1 [u|e]]; cbn [fst] in *; [now apply IH|].
      destruct e; try exact P1. exact (IH last _ NX (E w1 P1)).
    + rewrite (PT line r _ T (commands_split r)).
      assert (EN : forall cmd, cmd = r \/ In cmd (split ";" r) -> entered (Line line :: lines) cmd).
      { intros cmd C. exists line, r. split; [now left|]. split; [exact T|]. destruct C as [->|C]; [now left|right]. exists (split ";" r). split; [apply commands_split|exact C]. }
      assert (P1 : P (fst (in_order_err ev sd (split ";" r) w))) by (apply seq_err_ind; [intros cmd w0 I; apply H; right; apply EN; now right|exact PW]).
      destruct (in_order_err ev sd (split ";" r) w) as [w1 [u|e]]; cbn [fst] in *.
      * apply IH; [|exact P1]. intros cmd w0 [[-> _]|C]; apply H; right; [apply EN; now left|now apply SUB].
      * destruct e; try exact P1. exact (IH last _ NX (E w1 P1)).
  - rewrite PC. exact (IH last _ NX (E w PW)).
Qed.
(** What a command logs if expressions do not, and the level afterwards. *)
Lemma process_logs : forall ev sd cmd w, calm sd ->
  exists ws notes, spells ws cmd /\ fst (process_err ev sd cmd w) = mkworld (w_sim (fst (process_err ev sd cmd w))) (w_level (fst (process_err ev sd cmd w))) (w_err w ++ notes) /\
    (w_level (fst (process_err ev sd cmd w)) = new_level ws (w_level w) \/ w_level (fst (process_err ev sd cmd w)) = w_level w) /\
    forall x, In (LogLine x) notes -> In (LogLine x) (complaint ws (w_level w) (w_sim w)).
Proof.
  intros ev sd cmd [s l er] CA. destruct (SimModel.words cmd) as [|v args] eqn:SP; apply C71_words_proof in SP.
  - exists []. assert (NP : not_python cmd) by (intros w a SP'; apply C71_words_proof in SP, SP'; congruence).
    rewrite (C98_stderr_command_proof ev sd cmd [] s l er SP NP). cbn [fst w_sim w_level w_err]. eexists. split; [exact SP|]. split; [reflexivity|]. split; [now left|].
    intros x I. apply in_app_or in I. destruct I as [I|I]; [exact I|]. exfalso. clear - I. unfold trouble in I. destruct (snd (dispatch cmd s)) as [|[]]; cbn in I; intuition discriminate.
  - exists (v :: args). assert (DEC : starts "$" v \/ ~ starts "$" v).
    { destruct v as [|c v]; [right; intros [r X]; discriminate|]. destruct (ascii_dec c "$") as [->|N]; [left; now exists v|right; intros [r X]; injection X as -> _; now apply N]. }
    destruct DEC as [ST|NS].
    + destruct cmd as [|c rest]; [exfalso; apply C71_words_proof in SP; discriminate SP|]. destruct (C67_lines_proof "" s) as (_ & _ & _ & D).
      assert (X : exists e, trims rest e \/ blank rest /\ e = "") by (destruct (D rest) as [B|[e T]]; [exists ""; right; now split|exists e; now left]).
      destruct X as [e X]. rewrite (C98_stderr_python_proof ev sd c rest v args e s l er SP ST X). cbn [fst w_sim w_level w_err]. destruct (CA e (sim_cpu s) l) as [C1 C2].
      eexists. split; [exact SP|]. split; [reflexivity|]. split; [right; exact C1|]. intros x I. apply in_app_or in I. destruct I as [I|I]; [destruct (C2 x I)|].
      exfalso. clear - I. unfold expr_trouble in I. destruct (snd (ev e (sim_cpu s))); cbn in I; intuition discriminate.
    + assert (NP : not_python cmd). { intros w a SP'. apply C71_words_proof in SP, SP'. rewrite SP in SP'. injection SP' as <- <-. exact NS. }
      rewrite (C98_stderr_command_proof ev sd cmd _ s l er SP NP). cbn [fst w_sim w_level w_err]. eexists. split; [exact SP|]. split; [reflexivity|]. split; [now left|].
      intros x I. apply in_app_or in I. destruct I as [I|I]; [exact I|]. exfalso. clear - I. unfold trouble in I. destruct (snd (dispatch cmd s)) as [|[]]; cbn in I; intuition discriminate.
Qed.
Lemma complaint_from : forall ws l s x, In (LogLine x) (complaint ws l s) -> l <= 40 /\
  exists w a v args, ws = w :: a :: v :: args /\ lower w = "wreg" /\ register_name_to_index (RName a) = None /\ x = unknown_text (lower a).
Proof.
  intros ws l s x H. destruct ws as [|w [|a [|v args]]]; try destruct H. unfold complaint in H. destruct (String.eqb_spec (lower w) "wreg") as [E|E]; [|destruct H].
  cbn [andb] in H. destruct (Z.leb_spec l 40) as [L|L]; [|destruct H]. destruct (register_name_to_index (RName a)) eqn:R; [destruct H|]. destruct (snd (convert_value v s)); [|destruct H].
  destruct H as [H|[]]. injection H as <-. split; [exact L|]. exists w, a, v, args. auto.
Qed.
(** Standard error of the program, by an invariant of its console. *)
Lemma main_logs : forall ev sd t fs argv lines (P : world -> Prop),
  (forall s level f, get_args fs argv = PArgs (Some level) f -> P (mkworld s (configured level) [])) ->
  (forall w s, P w -> P (mkworld s (w_level w) (w_err w))) ->
  (forall cmd w, entered lines cmd -> P w -> P (fst (process_err ev sd cmd w))) ->
  forall x, In (LogLine x) (snd (main_err ev sd t fs argv lines)) -> exists w, P w /\ In (LogLine x) (w_err w).
Proof.
  intros ev sd t fs argv lines P P0 PQ PP x I. unfold main_err in I.
  assert (Q : forall (m : act unit) w, P w -> P (fst (quietly m w))) by (intros m w H; unfold quietly; destruct (m (w_sim w)); now apply PQ).
  assert (R : forall k d n, (forall w, P w -> P (fst (k w))) -> (forall s, P (mkworld s n [])) ->
    In (LogLine x) (snd (let '(w, r) := tool_run_err k t d n in (Ran (w_sim w) r, w_err w))) -> exists w, P w /\ In (LogLine x) (w_err w)).
  { intros k d n K N IN. unfold tool_run_err in IN.
    assert (F : forall w r, P w -> In (LogLine x) (snd (let '(w, r) := match r : sres unit with
        | Done _ | Fail ToolExit => (w, Exit 0)
        | Fail (Raised ValueError) => (fst (quietly (print "Error: invalid argument") w), Exit 0)
        | Fail (Tool m) => (fst (quietly (print_comma "Error:" ;; print m) w), Exit 1)
        | Fail SysExit => (w, Exit 2)
        | Fail (Quit code) => (w, Exit code)
        | Fail e => (fst (write_note (Trace e) w), Uncaught e)
        end in (Ran (w_sim w) r, w_err w))) -> exists w, P w /\ In (LogLine x) (w_err w)).
    { intros w r PW IN'. exists w. split; [exact PW|].
      assert (QE : forall m : act unit, w_err (fst (quietly m w)) = w_err w) by (intros m; unfold quietly; destruct (m (w_sim w)); reflexivity).
      assert (WE : forall e, In (LogLine x) (w_err (fst (write_note (Trace e) w))) -> In (LogLine x) (w_err w)).
      { intros e X. cbn in X. apply in_app_or in X. destruct X as [X|[X|[]]]; [exact X|discriminate X]. }
      destruct r as [u|e]; [exact IN'|]. destruct e as [e| | | | | |]; try exact IN'; try (cbn [snd] in IN'; rewrite QE in IN'; exact IN'); try (apply WE in IN'; exact IN').
      destruct e; first [apply WE in IN'; exact IN'|cbn [snd] in IN'; rewrite QE in IN'; exact IN']. }
    destruct (create_sim d) as [c|y].
    - assert (PK : P (fst ((quietly reset_sim ;;; k) (mkworld (mksim c t [] false) n [])))).
      { unfold wbind. pose proof (Q reset_sim _ (N (mksim c t [] false))) as X. destruct (quietly reset_sim (mkworld (mksim c t [] false) n [])) as [w1 [u|e]]; [|exact X]. apply K. exact X. }
      destruct ((quietly reset_sim ;;; k) (mkworld (mksim c t [] false) n [])) as [w r]. exact (F w r PK IN).
    - apply (F (mkworld (mksim cpu_new t [] false) n []) (Fail (Raised y))); [apply N|exact IN]. }
  destruct (get_args fs argv) as [[level|] f| | | |y] eqn:G.
  - assert (N : forall s, P (mkworld s (configured level) [])) by (intros s; now apply (P0 s level f)).
    assert (CO : forall w, P w -> P (fst (console_err ev sd "" lines w))).
    { intros w PW. apply console_err_ind; [intros w0; apply Q| |exact PW]. intros cmd w0 [[_ X]|C]; [now destruct X|now apply PP]. }
    destruct f as [[d|]|]; [exact (R (console_err ev sd "" lines) d (configured level) CO N I)| |exact (R (console_err ev sd "" lines) [] (configured level) CO N I)]. destruct (typed_bytes lines) as [d|]; [|cbn in I; destruct I as [X|[]]; discriminate X].
    exact (R (quietly (sfail (Raised ValueError))) d (configured level) (Q _) N I).
  - destruct f as [[d|]|]; [| destruct (typed_bytes lines) |]; cbn in I; destruct I as [X|[]]; discriminate X.
  - destruct I.
  - cbn in I; destruct I as [X|[]]; discriminate X.
  - cbn in I; destruct I as [X|[]]; discriminate X.
  - cbn in I; destruct I as [X|[]]; discriminate X.
Qed.
(*@doc C98: all that the program logs are names that no register has and that were given to
wreg, in small letters, if expressions do not log. @*)
Lemma C98_stderr_log_proof : forall ev sd t fs argv lines x, calm sd -> In (LogLine x) (snd (main_err ev sd t fs argv lines)) ->
  exists cmd w a v args, entered lines cmd /\ spells (w :: a :: v :: args) cmd /\ lower w = "wreg" /\ register_name_to_index (RName a) = None /\ x = unknown_text (lower a).
Proof.
  intros ev sd t fs argv lines x CA I.
  destruct (main_logs ev sd t fs argv lines (fun w => forall y, In (LogLine y) (w_err w) ->
    exists cmd w a v args, entered lines cmd /\ spells (w :: a :: v :: args) cmd /\ lower w = "wreg" /\ register_name_to_index (RName a) = None /\ y = unknown_text (lower a))) with (x := x) as (w & PW & IW); [| | |exact I|exact (PW x IW)].
  - intros s l f _ y [].
  - intros w s H. exact H.
  - intros cmd w EN H y IN. destruct (process_logs ev sd cmd w CA) as (ws & notes & SP & E & _ & LG). rewrite E in IN. cbn [w_err] in IN. apply in_app_or in IN.
    destruct IN as [IN|IN]; [exact (H y IN)|]. apply LG, complaint_from in IN. destruct IN as (_ & v & a & u & args & -> & LW & RN & X). exists cmd, v, a, u, args. auto.
Qed.
(*@ex
Example C98_stderr_log_ex : calm ex_side /\ entered [Line "x; wreg R99 5"] " wreg R99 5" /\ register_name_to_index (RName "R99") = None.
Proof.
  split; [intros e c l; split; [reflexivity|intros t []]|]. split; [|reflexivity]. exists "x; wreg R99 5", "x; wreg R99 5". split; [now left|].
  split; [|right; exists ["x"; " wreg R99 5"]; split; [|right; now left]].
  - exists "", "". split; [constructor|]. split; [constructor|]. split; [reflexivity|]. assert (D : forall c, is_ws c = false -> ~ space c) by (intros c W X; apply ConsoleThms.space_ws in X; congruence).
    split; [exists "x"%char, (chars "; wreg R99 5")|exists "5"%char, (chars "x; wreg R99 ")]; (split; [reflexivity|now apply D]).
  - apply (commands_cons "x" [" wreg R99 5"] " wreg R99 5"); [intros X; vm_compute in X; intuition discriminate|]. apply commands_last. intros X; vm_compute in X; intuition discriminate.
Qed.
@*)

(*@doc C98: with the level critical and no command that sets another level, nothing is logged,
if expressions do not log. @*)
Lemma C98_stderr_critical_proof : forall ev sd t fs argv lines it f x, calm sd -> command_line it argv -> opens fs (slots it) f -> level_asked (Some "warning") it = Some "critical" ->
  (forall cmd ws, entered lines cmd -> spells ws cmd -> new_level ws 50 = 50) -> ~ In (LogLine x) (snd (main_err ev sd t fs argv lines)).
Proof.
  intros ev sd t fs argv lines it f x CA CL O LV NL I.
  destruct (main_logs ev sd t fs argv lines (fun w => (forall y, ~ In (LogLine y) (w_err w)) /\ w_level w = 50)) with (x := x) as (w & [PW _] & IW); [| | |exact I|exact (PW x IW)].
  - intros s level f' G. split; [intros y []|]. assert (G' : get_args fs argv = PArgs (Some "critical") f) by (apply C98_arguments_proof; exists it; now rewrite LV).
    rewrite G in G'. injection G' as -> _. reflexivity.
  - intros w s H. exact H.
  - intros cmd w EN [H L]. destruct (process_logs ev sd cmd w CA) as (ws & notes & SP & E & LE & LG). split.
    + intros y IN. rewrite E in IN. cbn [w_err] in IN. apply in_app_or in IN. destruct IN as [IN|IN]; [exact (H y IN)|]. apply LG, complaint_from in IN. destruct IN as [X _]. lia.
    + destruct LE as [LE|LE]; rewrite LE; [|exact L]. rewrite L. exact (NL cmd ws EN SP).
Qed.
(*@ex
Example C98_stderr_critical_ex : calm ex_side /\ command_line [SetLevel (Some "critical")] ["--debug"; "critical"] /\ opens ex_files (slots [SetLevel (Some "critical")]) None /\
  match DECODER_TREE with
  | Ok t => map (fun l => snd (main_err ex_eval ex_side t ex_files ["--debug"; l] [Line "wreg r99 5"; Line "r98"])) ["critical"; "error"] = [[]; [LogLine (unknown_text "r99")]]
  | Err _ => False
  end.
Proof.
  split; [intros e c l; split; [reflexivity|intros t []]|]. split; [apply cl_level; [vm_compute; tauto|vm_compute; tauto|constructor]|]. split; [left; split; [now left|reflexivity]|].
  vm_compute. reflexivity.
Qed.
@*)
