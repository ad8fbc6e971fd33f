(** * Python runtime fragments used by the model

    Nothing in this file models code of /repo itself: it fixes how the Python
    features used by cmdis (exceptions, integers, slices, [%] formatting) are
    represented.  Python 2.7 and 3.7 are the interpreters listed in
    /repo/.travis.yml:4-6. *)
From Coq Require Export ZArith List String Ascii Bool.
Export ListNotations.
Open Scope Z_scope.
Open Scope list_scope.

(** The two supported interpreters. *)
Inductive pyver := Py2 | Py3.

(** Exceptions that the modelled code can raise.  [OutOfFuel] is not a Python
    exception: a fuelled loop returns it when its fuel is exhausted, i.e. when
    the Python loop would run longer than the model's bound. *)
Inductive exc :=
| ValueError | TypeError | IndexError | KeyError | NameError | AttributeError
| AssertionError | ZeroDivisionError
| UndefinedInstructionError | DecodeError | UnpredictableError
| ToolError | OutOfFuel.

Inductive res (A : Type) :=
| Ok (a : A)
| Err (e : exc).
Arguments Ok {A} a.
Arguments Err {A} e.

Definition bind {A B} (r : res A) (f : A -> res B) : res B :=
  match r with Ok a => f a | Err e => Err e end.

Notation "'let*' x ':=' e 'in' k" := (bind e (fun x => k))
  (at level 200, x name, e at level 100, k at level 200, right associativity).
Notation "'let*' ' x ':=' e 'in' k" := (bind e (fun x => k))
  (at level 200, x strict pattern, e at level 100, k at level 200, right associativity).


(** [1 << n], [a << n], [a >> n] on Python ints: a negative count is ValueError. *)
Definition py_shl (a n : Z) : res Z := if n <? 0 then Err ValueError else Ok (Z.shiftl a n).
Definition py_shr (a n : Z) : res Z := if n <? 0 then Err ValueError else Ok (Z.shiftr a n).

(** [range(n)] for a Python int [n]. *)
Definition py_range (n : Z) : list Z := map Z.of_nat (seq 0 (Z.to_nat n)).

(** A Python slice object and [slice.indices(len)] (CPython PySlice_AdjustIndices). *)
Record pyslice := mkslice { sl_start : option Z; sl_stop : option Z; sl_step : option Z }.

Definition slice_clamp (lower upper len x : Z) : Z :=
  if x <? 0 then (let x' := x + len in if x' <? lower then lower else x')
  else (if upper <? x then upper else x).

Definition slice_indices (s : pyslice) (len : Z) : res (Z * Z * Z) :=
  let step := match sl_step s with None => 1 | Some k => k end in
  if step =? 0 then Err ValueError else
  let lower := if step <? 0 then -1 else 0 in
  let upper := if step <? 0 then len - 1 else len in
  let start := match sl_start s with
               | None => if step <? 0 then upper else lower
               | Some x => slice_clamp lower upper len x end in
  let stop := match sl_stop s with
              | None => if step <? 0 then lower else upper
              | Some x => slice_clamp lower upper len x end in
  Ok (start, stop, step).

(** The slice [a:b]. *)
Definition sl (a b : Z) : pyslice := mkslice (Some a) (Some b) None.

(** ** Characters and strings *)
Definition str_ws : list ascii :=  (* string.whitespace *)
  [" "%char; "009"%char; "010"%char; "011"%char; "012"%char; "013"%char].
Definition is_ws (c : ascii) : bool := existsb (Ascii.eqb c) str_ws.
Definition is_digit (c : ascii) : bool :=
  let n := nat_of_ascii c in (Nat.leb 48 n && Nat.leb n 57)%bool.
Definition is_letter (c : ascii) : bool :=  (* string.ascii_letters *)
  let n := nat_of_ascii c in
  ((Nat.leb 65 n && Nat.leb n 90) || (Nat.leb 97 n && Nat.leb n 122))%bool.
Definition digit_val (c : ascii) : Z := Z.of_nat (nat_of_ascii c) - 48.

Fixpoint chars (s : string) : list ascii :=
  match s with EmptyString => [] | String c s' => c :: chars s' end.
Fixpoint of_chars (l : list ascii) : string :=
  match l with [] => EmptyString | c :: l' => String c (of_chars l') end.

(** [int(s)] on a string of decimal digits. *)
Definition parse_dec (l : list ascii) : Z :=
  fold_left (fun a c => a * 10 + digit_val c) l 0.

(** [int(s, base=2)] on a string.  Covered: surrounding ASCII whitespace, sign,
    [0b] prefix, digits.  Not covered: underscores between digits (Python 3.6+)
    and non-ASCII whitespace, which this function rejects. *)
Fixpoint drop_ws (l : list ascii) : list ascii :=
  match l with c :: l' => if is_ws c then drop_ws l' else l | [] => [] end.
Definition strip_ws (l : list ascii) : list ascii := rev (drop_ws (rev (drop_ws l))).
Fixpoint bin_digits (l : list ascii) (acc : Z) : option Z :=
  match l with
  | [] => Some acc
  | c :: l' => if Ascii.eqb c "0" then bin_digits l' (2 * acc)
               else if Ascii.eqb c "1" then bin_digits l' (2 * acc + 1) else None
  end.
Definition bin_unsigned (l : list ascii) : option Z :=
  let l := match l with
           | a :: b :: l' =>
             if (Ascii.eqb a "0" && (Ascii.eqb b "b" || Ascii.eqb b "B"))%bool then l' else l
           | _ => l end in
  match l with [] => None | _ => bin_digits l 0 end.
Definition int_base2 (s : string) : res Z :=
  let l := strip_ws (chars s) in
  let r := match l with
           | "-"%char :: l' => option_map Z.opp (bin_unsigned l')
           | "+"%char :: l' => bin_unsigned l'
           | _ => bin_unsigned l end in
  match r with Some z => Ok z | None => Err ValueError end.

(** ** Integer formatting *)
Definition digit_char (d : Z) : ascii :=
  ascii_of_nat (Z.to_nat (if d <? 10 then 48 + d else 87 + d)).

(** Digits of [n >= 0] in base [b], most significant first, in front of [acc]. *)
Fixpoint digits_loop (fuel : nat) (b n : Z) (acc : string) : string :=
  match fuel with
  | O => acc
  | S f => let acc' := String (digit_char (n mod b)) acc in
           if n / b =? 0 then acc' else digits_loop f b (n / b) acc'
  end.
Definition digits (b n : Z) : string :=
  digits_loop (S (Z.to_nat (Z.log2 n))) b n EmptyString.

(** ["%d" % z], ["%x" % z], ["%+d" % z]. *)
Definition fmt_base (b z : Z) : string :=
  if z <? 0 then String "-" (digits b (- z)) else digits b z.
Definition fmt_d (z : Z) : string := fmt_base 10 z.
Definition fmt_x (z : Z) : string := fmt_base 16 z.
Definition fmt_plus_d (z : Z) : string := if z <? 0 then fmt_d z else String "+" (fmt_d z).

Fixpoint repeat_char (c : ascii) (n : nat) : string :=
  match n with O => EmptyString | S k => String c (repeat_char c k) end.
Definition strlen (s : string) : Z := Z.of_nat (String.length s).
(** ["%0*x" % (w, z)] for [z >= 0]. *)
Definition fmt_0x (w z : Z) : string :=
  let s := fmt_x z in (repeat_char "0" (Z.to_nat (w - strlen s)) ++ s)%string.
(** ["{:<w}".format(s)]. *)
Definition pad_right (w : Z) (s : string) : string :=
  (s ++ repeat_char " " (Z.to_nat (w - strlen s)))%string.

(** [sep.join(l)]. *)
Fixpoint join (sep : string) (l : list string) : string :=
  match l with
  | [] => EmptyString
  | [s] => s
  | s :: l' => (s ++ sep ++ join sep l')%string
  end.
