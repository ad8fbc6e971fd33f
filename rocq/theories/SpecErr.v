(** * Vocabulary for the statements about standard error *)
From Verif Require Import StderrModel SpecBits SpecCpu SpecFormat SpecSim SpecConsole SpecProg SpecArgs.
Local Open Scope string_scope.
Local Open Scope list_scope.
Local Open Scope Z_scope.
Local Open Scope bool_scope.

(** The log levels; a message of a level is written if the level set is not higher. *)
Definition level_value (name : string) : option Z :=
  if String.eqb name "debug" then Some 10
  else if String.eqb name "info" then Some 20
  else if String.eqb name "warning" then Some 30
  else if String.eqb name "error" then Some 40
  else if String.eqb name "critical" then Some 50
  else None.
(** The level after the command of words [ws]. *)
Definition new_level (ws : list string) (level : Z) : Z :=
  match ws with
  | w :: a :: _ =>
    if String.eqb (lower w) "log" then match level_value (lower a) with Some n => n | None => level end else level
  | _ => level
  end.
(** What is logged for a name that no register has. *)
Definition unknown_text (name : string) : string := "ERROR:root:cannot find " +++ name +++ " core register".
(** What the command of words [ws] logs: wreg with such a name, if there is a value and it can
    be converted. *)
Definition complaint (ws : list string) (level : Z) (s : sim) : list note :=
  match ws with
  | w :: a :: v :: _ =>
    if String.eqb (lower w) "wreg" && (level <=? 40) then
      match register_name_to_index (RName a), snd (convert_value v s) with
      | None, Done _ => [LogLine (unknown_text (lower a))]
      | _, _ => []
      end
    else []
  | _ => []
  end.
(** The traceback for an exception that the command raised, or the words of the parser of
    options before it exits. *)
Definition trouble (r : sres unit) : list note :=
  match r with
  | Fail (Raised e) => [Trace (Raised e)]
  | Fail SysExit => [UsageText]
  | _ => []
  end.
(** The traceback for an exception that an expression raised. *)
Definition expr_trouble (r : evaluated) : list note :=
  match r with EvRaise e => [Trace (Raised e)] | _ => [] end.
(** Commands, one after the other. *)
Definition in_order_err (ev : evaluator) (sd : side_effect) (cs : list string) : wact unit :=
  fold_right (fun cmd k => process_err ev sd cmd ;;; k) (wret tt) cs.
(** Expressions do not log anything and leave the level. *)
Definition calm (sd : side_effect) : Prop :=
  forall e c l, fst (sd e c l) = l /\ forall t, ~ In (LogLine t) (snd (sd e c l)).

(** For the examples. *)
Definition ex_side : side_effect := fun t c l => (l, []).
Definition on_world (level : Z) (k : world -> Prop) : Prop := on_sim cpu_new (fun s => k (mkworld s level [])).
