(** * Vocabulary for the statements about the command line *)
From Verif Require Import ArgsModel SpecSim.
Local Open Scope string_scope.
Local Open Scope list_scope.
Local Open Scope Z_scope.

Definition begins (p w : string) : Prop := exists r, w = (p ++ r)%string.
(** The spellings of the options without what may be attached to them. *)
Definition names_level : list string := ["-d"; "--d"; "--de"; "--deb"; "--debu"; "--debug"].
Definition names_help : list string := ["-h"; "--h"; "--he"; "--hel"; "--help"].
Definition names_version : list string := ["--v"; "--ve"; "--ver"; "--vers"; "--versi"; "--versio"; "--version"].
Definition the_levels : list string := ["debug"; "info"; "warning"; "error"; "critical"].

(** [w] gives the option for the level and in the same word the value [l]. *)
Definition joined (l w : string) : Prop :=
  w = ("-d" ++ l)%string /\ l <> "" /\ ~ begins "=" l \/
  exists a, In a names_level /\ w = (a ++ "=" ++ l)%string.

(** Words that look like negative numbers. *)
Definition some_digits (l : list ascii) : Prop := forall c, In c l -> In c (chars "0123456789").
Definition looks_negative (w : string) : Prop :=
  exists a b e, some_digits a /\ some_digits b /\ (e = [] \/ e = ["010"%char]) /\
    (chars w = "-"%char :: a ++ e /\ a <> [] \/ chars w = "-"%char :: a ++ "."%char :: b ++ e /\ b <> []).
(** [w] is not a way to write an option. *)
Definition not_option (w : string) : Prop :=
  ~ begins "-d" w /\ ~ begins "-h" w /\ w <> "--" /\ ~ begins "--=" w /\
  (forall a, In a (names_level ++ names_help ++ names_version) -> w <> a /\ ~ begins (a ++ "=") w).
(** Words that are taken for the name of a file: those that do not begin with a dash, the
    dash itself, and others that look like a negative number or have a blank in them and
    are not a way to write an option. *)
Definition odd_word (w : string) : Prop :=
  begins "-" w /\ w <> "-" /\ (looks_negative w \/ In " "%char (chars w)) /\ not_option w.
Definition file_word (w : string) : Prop := ~ begins "-" w \/ w = "-" \/ odd_word w.

(** What a command line asks for: a log level (None for two dashes in place of one), a file,
    or nothing more. *)
Inductive item := SetLevel (l : option string) | Binary (name : string) | Stop.
Inductive command_line : list item -> list string -> Prop :=
| cl_end : command_line [] []
| cl_stop : command_line [Stop] ["--"]
| cl_stop_file : forall n, command_line [Binary n] ["--"; n]
| cl_file_stop : forall n, file_word n -> command_line [Binary n] [n; "--"]
| cl_file : forall n it argv, file_word n -> command_line it argv -> command_line (Binary n :: it) (n :: argv)
| cl_level : forall l a it argv, In l the_levels -> In a names_level -> command_line it argv ->
    command_line (SetLevel (Some l) :: it) (a :: l :: argv)
| cl_joined : forall l w it argv, In l the_levels -> joined l w -> command_line it argv ->
    command_line (SetLevel (Some l) :: it) (w :: argv)
| cl_dashes : forall w it argv, joined "--" w -> command_line it argv ->
    command_line (SetLevel None :: it) (w :: argv).

(** The level that was asked for last, and the files. *)
Definition level_asked (default : option string) (it : list item) : option string :=
  fold_left (fun d i => match i with SetLevel l => l | _ => d end) it default.
Definition slots (it : list item) : list (option string) :=
  flat_map (fun i => match i with SetLevel _ => [] | Binary n => [Some n] | Stop => [None] end) it.
(** At most one file is asked for, and it is there. *)
Definition opens (fs : string -> option (list Z)) (names : list (option string)) (f : option source) : Prop :=
  (names = [] \/ names = [None]) /\ f = None \/
  names = [Some "-"] /\ f = Some FromStdin \/
  exists n d, names = [Some n] /\ n <> "-" /\ fs n = Some d /\ f = Some (FromFile d).

(** Words that look like options but are none. *)
Definition unknown_word (w : string) : Prop :=
  begins "-" w /\ w <> "-" /\ ~ (looks_negative w \/ In " "%char (chars w)) /\ not_option w.
(** The words so far do not end the program: levels that exist, a first file that can be
    opened (unless one was before them, [b]), and, which matters only at the end, more files
    and unknown options. *)
Inductive lenient (fs : string -> option (list Z)) : bool -> list string -> Prop :=
| le_end : forall b, lenient fs b []
| le_file : forall n argv, file_word n -> n = "-" \/ fs n <> None -> lenient fs true argv -> lenient fs false (n :: argv)
| le_more : forall n argv, file_word n -> lenient fs true argv -> lenient fs true (n :: argv)
| le_unknown : forall b w argv, unknown_word w -> lenient fs b argv -> lenient fs b (w :: argv)
| le_level : forall b l a argv, In l the_levels -> In a names_level -> lenient fs b argv -> lenient fs b (a :: l :: argv)
| le_joined : forall b l w argv, In l the_levels \/ l = "--" -> joined l w -> lenient fs b argv -> lenient fs b (w :: argv).
(** No word in front of the first two dashes abbreviates several options. *)
Definition unambiguous (argv : list string) : Prop :=
  forall a w b, argv = a ++ w :: b -> ~ In "--" a -> ~ begins "--=" w.
(** A word that asks for help when [rest] follows: a help option, or the short one with more
    short options attached, the last of which may be that for the level with its value. *)
Definition asks_help (w : string) (rest : list string) : Prop :=
  In w names_help \/
  exists f k, (w = ("-h" ++ f)%string /\ ~ begins "=" f \/ w = ("-h=" ++ f)%string) /\
    (chars f = repeat "h"%char (S k) \/
     exists y, chars f = repeat "h"%char k ++ "d"%char :: y /\ (y <> [] \/ exists n r, rest = n :: r /\ file_word n)).
(** What a command line is. *)
Definition accepted (fs : string -> option (list Z)) (argv : list string) : Prop :=
  exists it f, command_line it argv /\ opens fs (slots it) f.
Definition for_help (fs : string -> option (list Z)) (argv : list string) : Prop :=
  unambiguous argv /\ exists a w b, argv = a ++ w :: b /\ lenient fs false a /\ asks_help w b.
Definition for_version (fs : string -> option (list Z)) (argv : list string) : Prop :=
  unambiguous argv /\ exists a w b, argv = a ++ w :: b /\ lenient fs false a /\ In w names_version.
Definition fatal (fs : string -> option (list Z)) (argv : list string) : Prop :=
  unambiguous argv /\ exists a b, argv = a ++ "-h=" :: b /\ lenient fs false a.
(** What the program prints and returns. *)
Definition ran (r : sim * status) : ended := Ran (fst r) (snd r).

(** A file system for the examples. *)
Definition ex_files : string -> option (list Z) := fun n => if String.eqb n "a.bin" then Some [0; 4; 0; 32; 8; 0; 0; 0; 1; 32; 64; 28] else None.
