(** * Vocabulary for the statements about the whole program *)
From Verif Require Import ProgramModel SpecBits SpecCpu SpecFormat SpecSim SpecConsole.
Local Open Scope string_scope.
Local Open Scope list_scope.
Local Open Scope Z_scope.

(** Hexadecimal filled up with zeros to a width, to which the sign counts; [hex8] is one. *)
Definition zero_filled (w : Z) (s : string) (z : Z) : Prop :=
  exists sign t, sign = (if z <? 0 then "-" else "") /\ canonical 16 t (Z.abs z) /\
    s = sign +++ repeat_char "0" (Z.to_nat (w - strlen sign - strlen t)) +++ t.
Definition hex8 (z : Z) : string := if z <? 0 then "-" +++ fmt_0x 7 (- z) else fmt_0x 8 z.

(** What is printed for the value of an expression. *)
Definition shown (r : evaluated) : list chunk :=
  match r with
  | EvNone => []
  | EvInt z => [Txt ("0x" +++ hex8 z +++ " (" +++ fmt_d z +++ ")"); Txt newline]
  | EvOther text => [Txt text; Txt newline]
  | EvRaise e => [Txt "Exception while executing expression:"; Txt " "; ErrText e; Txt newline]
  | EvExit _ | EvInterrupt => []
  end.
(** How the command ends. *)
Definition how_ends (r : evaluated) : sres unit :=
  match r with
  | EvExit code => Fail (Quit code)
  | EvInterrupt => Fail Interrupt
  | _ => Done tt
  end.
(** Commands, one after the other. *)
Definition in_order (ev : evaluator) (cs : list string) : act unit := fold_right (fun cmd k => process_py ev cmd ;; k) (sret tt) cs.
(** The command is an expression, and the evaluator can answer [r]. *)
Definition python (ev : evaluator) (cmd : string) (r : evaluated) : Prop :=
  (exists w args, spells (w :: args) cmd /\ starts "$" w) /\ exists e c, snd (ev e c) = r.
(** Typed lines. *)
Definition typed (l : list string) : list input := map Line l.
(** [cmd] is one of the commands of a typed line, or a whole line (which a blank one
    repeats). *)
Definition entered (lines : list input) (cmd : string) : Prop :=
  exists line r, In (Line line) lines /\ trims line r /\ (cmd = r \/ exists cs, commands cs r /\ In cmd cs).
(** The evaluator keeps the machine valid and its memory regions where they are. *)
Definition decent (ev : evaluator) : Prop :=
  forall t c, cpu_ok c -> cpu_ok (fst (ev t c)) /\ layout (fst (ev t c)) = layout c.
(** An evaluator for the examples: it knows one expression. *)
Definition ex_eval : evaluator := fun t c => if String.eqb t "6 * 7" then (c, EvInt 42)
  else if String.eqb t "exit(3)" then (c, EvExit 3) else if String.eqb t "-5" then (c, EvInt (-5))
  else if String.eqb t "wait" then (c, EvInterrupt) else (c, EvRaise NameError).
