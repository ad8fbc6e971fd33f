(** * Model of /repo/cmdis/__main__.py:307-318, 349-386: the command line of the program

    [get_args] hands the work to [argparse], of which this is what three calls of
    [add_argument] use (the library of Python 2.7, functions [_parse_known_args],
    [_parse_optional], [_get_option_tuples], [_match_argument] and [_get_values]).  Not
    modelled: the texts of help, version and usage errors, a file that can be opened but
    not read, and what the log level does. *)
From Verif Require Export ProgramModel.
Local Open Scope Z_scope.

(** ** The parser *)

(** __main__.py:311-312; [argparse] adds the first two itself *)
Inductive action := AHelp | AVersion | ADebug.
Definition option_strings : list (string * action) :=
  [("-h", AHelp); ("--help", AHelp); ("--version", AVersion); ("-d", ADebug); ("--debug", ADebug)]%string.

(** What a file name stands for: its contents, or standard input. *)
Inductive source := FromFile (data : list Z) | FromStdin.
(** [parse_args]: the log level (None: the empty list, see [store_level]) and the binary
    file; or the program ends, with help, version or an error ([PUsage], status 2); or an
    exception that is not caught. *)
Inductive parsed :=
| PArgs (level : option string) (file : option source)
| PHelp | PVersion | PUsage | PCrash (e : exc).

(** argparse: [option_string.split('=', 1)] *)
Fixpoint cut_equals (l : list ascii) : option (list ascii * list ascii) :=
  match l with
  | [] => None
  | c :: l' => if Ascii.eqb c "=" then Some ([], l') else option_map (fun '(a, b) => (c :: a, b)) (cut_equals l')
  end.
Definition known (l : list ascii) : option action :=
  option_map snd (find (fun o => String.eqb (fst o) (of_chars l)) option_strings).
(** argparse: [_get_option_tuples]; abbreviations, and a short option with its argument *)
Definition option_tuples (l : list ascii) : list (action * string * option (list ascii)) :=
  match l with
  | "-"%char :: "-"%char :: _ =>
    let '(prefix, explicit) := match cut_equals l with Some (a, b) => (a, Some b) | None => (l, None) end in
    map (fun o => (snd o, fst o, explicit)) (filter (fun o => is_prefix prefix (chars (fst o))) option_strings)
  | "-"%char :: c :: arg =>
    flat_map (fun o => if String.eqb (fst o) (of_chars ["-"%char; c]) then [(snd o, fst o, Some arg)]
                       else if is_prefix l (chars (fst o)) then [(snd o, fst o, None)] else []) option_strings
  | _ => []
  end.
(** argparse: [_negative_number_matcher], '^-\d+$|^-\d*\.\d+$' *)
Definition is_digit (c : ascii) : bool := match digit_in 10 c with Some _ => true | None => false end.
Fixpoint drop_digits (l : list ascii) : list ascii :=
  match l with
  | c :: l' => if is_digit c then drop_digits l' else l
  | [] => []
  end.
Definition at_end (l : list ascii) : bool :=
  match l with [] => true | [c] => Ascii.eqb c "010" | _ => false end.
Definition digits_to_end (l : list ascii) : bool :=
  match l with c :: _ => (is_digit c && at_end (drop_digits l))%bool | [] => false end.
Definition is_negative (l : list ascii) : bool :=
  match l with
  | "-"%char :: r =>
    (digits_to_end r || match drop_digits r with "."%char :: r' => digits_to_end r' | _ => false end)%bool
  | _ => false
  end.

(** A word of the command line: an argument, an option (with its action, the option string
    and what is attached to it; None for an unknown option), or two dashes. *)
Inductive kind := Arg | Opt (o : option (action * string * option (list ascii))) | Dashes.
(** argparse: [_parse_optional]; None for an ambiguous abbreviation *)
Definition parse_optional (w : string) : option kind :=
  match chars w with
  | "-"%char :: r =>
    match known (chars w), r with
    | Some a, _ => Some (Opt (Some (a, w, None)))
    | None, [] => Some Arg
    | None, _ =>
      match match cut_equals (chars w) with
            | Some (o, e) => option_map (fun a => (a, of_chars o, Some e)) (known o)
            | None => None
            end, option_tuples (chars w) with
      | Some t, _ => Some (Opt (Some t))
      | None, [t] => Some (Opt (Some t))
      | None, _ :: _ :: _ => None
      | None, [] =>
        if (is_negative (chars w) || existsb (Ascii.eqb " ") (chars w))%bool then Some Arg else Some (Opt None)
      end
    end
  | _ => Some Arg
  end.
(** argparse, [_parse_known_args]: after two dashes everything is an argument *)
Fixpoint classify (argv : list string) : option (list (string * kind)) :=
  match argv with
  | [] => Some []
  | w :: rest =>
    if String.eqb w "--" then Some ((w, Dashes) :: map (fun x => (x, Arg)) rest)
    else match parse_optional w, classify rest with
         | Some k, Some l => Some ((w, k) :: l)
         | _, _ => None
         end
  end.

(** The namespace, whether the file has been looked for, and whether words are left over. *)
Record found := mkfound { f_level : option string; f_file : option source; f_done : bool; f_extra : bool }.

(** argparse: [_get_values] for [-d]; it takes the first two dashes out of the arguments,
    and then none is left to be checked. *)
Definition store_level (w : string) (f : found) : found + parsed :=
  if String.eqb w "--" then inl (mkfound None (f_file f) (f_done f) (f_extra f))
  else if existsb (String.eqb w) LEVELS then inl (mkfound (Some w) (f_file f) (f_done f) (f_extra f))
  else inr PUsage.
(** argparse: [FileType('rb')]; [fs] is what [open] does *)
Definition open_file (fs : string -> option (list Z)) (w : string) : source + parsed :=
  if String.eqb w "-" then inl FromStdin
  else match fs w with Some d => inl (FromFile d) | None => inr PUsage end.

(** argparse, [consume_optional]: [-h] with letters attached to it; the help is shown when
    all of them are known options and the last has its argument. *)
Fixpoint more_flags (attached : list ascii) (arg_follows : bool) : parsed :=
  match attached with
  | [] => PCrash IndexError
  | c :: rest =>
    match known ["-"%char; c], rest with
    | Some AHelp, [] | Some AVersion, [] => PHelp
    | Some AHelp, _ | Some AVersion, _ => more_flags rest arg_follows
    | Some ADebug, [] => if arg_follows then PHelp else PUsage
    | Some ADebug, _ => PHelp
    | None, _ => PUsage
    end
  end.
Definition arg_follows (l : list (string * kind)) : bool := match l with (_, Arg) :: _ => true | _ => false end.

(** argparse, [consume_positionals] when no option is left: at most one word, and two
    dashes before or after it *)
Definition first_word (l : list (string * kind)) : option string * list (string * kind) :=
  match l with
  | (_, Dashes) :: (w, _) :: rest => (Some w, rest)
  | [(_, Dashes)] => (None, [])
  | (w, _) :: (_, Dashes) :: rest => (Some w, rest)
  | (w, _) :: rest => (Some w, rest)
  | [] => (None, [])
  end.
Definition has_option (l : list (string * kind)) : bool :=
  existsb (fun x => match snd x with Opt _ => true | _ => false end) l.

(** argparse, [_parse_known_args]: the loop over the words, and what [parse_args] does with
    the words that are left over *)
Fixpoint consume (fs : string -> option (list Z)) (l : list (string * kind)) (f : found) : parsed :=
  let finish f rest := if (f_extra f || negb (Nat.eqb (List.length rest) 0))%bool then PUsage
                       else PArgs (f_level f) (f_file f) in
  if has_option l then
    match l with
    | (w, Opt None) :: rest => consume fs rest (mkfound (f_level f) (f_file f) (f_done f) true)
    | (w, Opt (Some (AHelp, o, None))) :: _ => PHelp
    | (w, Opt (Some (AVersion, o, None))) :: _ => PVersion
    | (w, Opt (Some (ADebug, o, None))) :: rest =>
      match rest with
      | (v, Arg) :: rest' => match store_level v f with inl f' => consume fs rest' f' | inr p => p end
      | _ => PUsage
      end
    | (w, Opt (Some (ADebug, o, Some v))) :: rest =>
      match store_level (of_chars v) f with inl f' => consume fs rest f' | inr p => p end
    | (w, Opt (Some (AHelp, o, Some v))) :: rest =>
      if String.eqb o "-h" then more_flags v (arg_follows rest) else PUsage
    | (w, Opt (Some (AVersion, o, Some v))) :: _ => PUsage
    | (w, _) :: rest =>
      if f_done f then consume fs rest (mkfound (f_level f) (f_file f) true true)
      else match open_file fs w with
           | inl d => consume fs rest (mkfound (f_level f) (Some d) true (f_extra f))
           | inr p => p
           end
    | [] => finish f []
    end
  else if f_done f then finish f l
  else match first_word l with
       | (None, rest) => finish (mkfound (f_level f) None true (f_extra f)) rest
       | (Some w, rest) =>
         match open_file fs w with
         | inl d => finish (mkfound (f_level f) (Some d) true (f_extra f)) rest
         | inr p => p
         end
       end.
(** __main__.py:307-314 *)
Definition get_args (fs : string -> option (list Z)) (argv : list string) : parsed :=
  match classify argv with
  | Some l => consume fs l (mkfound (Some "warning"%string) None false false)
  | None => PUsage
  end.

(** ** The program *)

(** How the program ends: [run] was entered far enough to make a simulator (the console,
    and the exit status), or the parser ended it (status 0 for help and version, 2 for an
    error), or Ctrl-C did while standard input was read as the binary. *)
Inductive ended := Ran (s : sim) (r : status) | Helped | Versioned | Misused | Interrupted.
(** Standard input as a file. *)
Fixpoint typed_bytes (lines : list input) : option (list Z) :=
  match lines with
  | [] => Some []
  | CtrlC :: _ => None
  | Line s :: rest => option_map (fun l => map (fun c => Z.of_nat (nat_of_ascii c)) (chars s) ++ 10 :: l) (typed_bytes rest)
  end.
(** __main__.py:349-386, 631.  The level is looked up in [LEVELS] (line 317), where a list
    is no key.  If the binary was standard input, that is closed, and [raw_input] raises
    ValueError. *)
Definition main (ev : evaluator) (t : dtree hid) (fs : string -> option (list Z)) (argv : list string) (lines : list input) : ended :=
  let start k binary level :=
    match level with
    | Some _ => let '(s, r) := tool_run k t binary in Ran s r
    | None => Ran (mksim cpu_new t [] false) (Uncaught (Raised TypeError))
    end in
  match get_args fs argv with
  | PArgs level None => start (console_py ev "" lines) [] level
  | PArgs level (Some (FromFile d)) => start (console_py ev "" lines) d level
  | PArgs level (Some FromStdin) =>
    match typed_bytes lines with
    | Some d => start (sfail (Raised ValueError)) d level
    | None => Interrupted
    end
  | PHelp => Helped
  | PVersion => Versioned
  | PUsage => Misused
  | PCrash e => Ran (mksim cpu_new t [] false) (Uncaught (Raised e))
  end.
