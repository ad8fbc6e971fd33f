(** * Vocabulary for the statements about interrupted instructions *)
From Verif Require Import DelegateExecModel SpecApi SpecAny.

(** [d] for so many calls; every later call raises [e] and does nothing.  This is what a
    KeyboardInterrupt does that comes between two calls, or a connection that is lost. *)
Definition stopping {S} (d : delegate S) (e : exc) : delegate (nat * S) := mkdelegate
  (fun k '(n, s) => match n with O => ((O, s), Err e) | Datatypes.S n' => let '(s', r) := del_read_register d k s in ((n', s'), r) end)
  (fun k v '(n, s) => match n with O => ((O, s), Err e) | Datatypes.S n' => let '(s', r) := del_write_register d k v s in ((n', s'), r) end)
  (fun a b '(n, s) => match n with O => ((O, s), Err e) | Datatypes.S n' => let '(s', r) := del_read_memory d a b s in ((n', s'), r) end)
  (fun a v b '(n, s) => match n with O => ((O, s), Err e) | Datatypes.S n' => let '(s', r) := del_write_memory d a v b s in ((n', s'), r) end).
