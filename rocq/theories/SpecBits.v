(** * Vocabulary for the statements about bitstrings

    Independent of how the model computes: only [Z] arithmetic, [Z.testbit] and
    the record of slots are used. *)
From Verif Require Import BitstringModel.

(** A well-formed object: the value fits the width, the mask is that of the width. *)
Definition wf (b : bs) : Prop :=
  0 <= bw b /\ 0 <= bv b < 2 ^ bw b /\ bm b = 2 ^ bw b - 1.

(** The object of width [w] holding [v] modulo [2^w]. *)
Definition bits (w v : Z) : bs := mkbs w (v mod 2 ^ w) (2 ^ w - 1).

(** Bit [i] of an object. *)
Definition bit (b : bs) (i : Z) : bool := Z.testbit (bv b) i.

(** An operand whose embedded bitstring, if any, is well formed. *)
Definition wf_val (v : pyval) : Prop :=
  match v with VBits b => wf b | _ => True end.

(** Two's complement reading of the low [w] bits of [v] (for [w >= 1]). *)
Definition twos (w v : Z) : Z :=
  let u := v mod 2 ^ w in if u <? 2 ^ (w - 1) then u else u - 2 ^ w.

(** Non-empty strings of 0s and 1s, and the number they denote. *)
Definition bin_char (c : ascii) : Prop := c = "0"%char \/ c = "1"%char.
Definition bin_text (s : string) : Prop := s <> EmptyString /\ Forall bin_char (chars s).
Definition bit_of_char (c : ascii) : Z := if Ascii.eqb c "1" then 1 else 0.
Fixpoint number (base : Z) (ds : list Z) (acc : Z) : Z :=
  match ds with [] => acc | d :: ds' => number base ds' (acc * base + d) end.
(** Number denoted by a most-significant-first list of digits. *)
Definition be_number (base : Z) (ds : list Z) : Z := number base ds 0.
(** Number denoted by a least-significant-first list of bytes. *)
Fixpoint le_number (l : list Z) : Z :=
  match l with [] => 0 | x :: l' => x + 256 * le_number l' end.
Definition text_bits (s : string) : list Z := map bit_of_char (chars s).

(** The integer meant by a right operand: an int, a bitstring's unsigned value, a
    binary text. *)
Inductive means : pyval -> Z -> Prop :=
| means_int : forall z, means (VInt z) z
| means_bits : forall b, wf b -> means (VBits b) (bv b)
| means_text : forall s, bin_text s -> means (VStr s) (be_number 2 (text_bits s)).

(** Value of a digit character 0-9 a-f (negative for other characters below 'a'). *)
Definition char_digit (c : ascii) : Z :=
  let n := Z.of_nat (nat_of_ascii c) in if n <? 58 then n - 48 else if n <? 97 then -1 else n - 87.
Definition is_base_digit (base : Z) (c : ascii) : Prop := 0 <= char_digit c < base.
(** [s] is a string of digits of [base] (possibly empty) denoting [n]. *)
Definition denotes (base : Z) (s : string) (n : Z) : Prop :=
  Forall (is_base_digit base) (chars s) /\ be_number base (map char_digit (chars s)) = n.
(** The usual representation: at least one digit, no superfluous leading zero. *)
Definition canonical (base : Z) (s : string) (n : Z) : Prop :=
  denotes base s n /\
  (n = 0 -> s = "0"%string) /\ (n <> 0 -> exists c t, s = String c t /\ c <> "0"%char).

(** The positions selected by a slice: [range(start, stop, step)]. *)
Definition range_count (start stop step : Z) : Z :=
  if 0 <? step then Z.max 0 ((stop - start + step - 1) / step)
  else Z.max 0 ((start - stop - step - 1) / (- step)).
Definition range_list (start stop step : Z) : list Z :=
  map (fun k => start + Z.of_nat k * step) (seq 0 (Z.to_nat (range_count start stop step))).

(** [slice.indices(len)], documented behaviour: a missing bound is the end the
    step walks away from / towards, a negative bound counts from the end, and
    bounds are clamped. *)
Definition clamp (lo hi x : Z) : Z := Z.max lo (Z.min hi x).
Definition from_end (len x : Z) : Z := if x <? 0 then x + len else x.
Definition slice_bounds (s : pyslice) (len : Z) : option (Z * Z * Z) :=
  match sl_step s with
  | Some 0 => None
  | Some (Zneg p) =>
    Some (match sl_start s with None => len - 1 | Some x => clamp (-1) (len - 1) (from_end len x) end,
          match sl_stop s with None => -1 | Some x => clamp (-1) (len - 1) (from_end len x) end,
          Zneg p)
  | st =>
    Some (match sl_start s with None => 0 | Some x => clamp 0 len (from_end len x) end,
          match sl_stop s with None => len | Some x => clamp 0 len (from_end len x) end,
          match st with Some k => k | None => 1 end)
  end.

(** Number of set bits among the positions below [w]. *)
Fixpoint ones_below (w : nat) (v : Z) : Z :=
  match w with
  | O => 0
  | S k => (if Z.testbit v (Z.of_nat k) then 1 else 0) + ones_below k v
  end.

(** ** Sequences of operations on one object (property C01) *)
Inductive bop :=
| OAdd (v : pyval) | OSub (v : pyval) | OMul (v : pyval) | OFloorDiv (v : pyval)
| OCat (v : pyval) | OShl (v : pyval) | OShr (v : pyval)
| OAnd (v : pyval) | OOr (v : pyval) | OXor (v : pyval)
| OSetValue (z : Z) | OSetWidth (w : Z) | OSetItem (k : pykey) (v : pyval)
| OInvert | OReverse | OSigned
| OEq (v : pyval) | ONe (v : pyval) | OLt (v : pyval) | OLe (v : pyval)
| OGt (v : pyval) | OGe (v : pyval).

Definition bop_val (o : bop) : pyval :=
  match o with
  | OAdd v | OSub v | OMul v | OFloorDiv v | OCat v | OShl v | OShr v
  | OAnd v | OOr v | OXor v | OSetItem _ v
  | OEq v | ONe v | OLt v | OLe v | OGt v | OGe v => v
  | _ => VNone
  end.

Definition keep {A} (b : bs) (r : res (bs * A)) : bs * option exc :=
  match r with Ok (b', _) => (b', None) | Err e => (b, Some e) end.
Definition upd (b : bs) (r : res bs) : bs * option exc :=
  match r with Ok b' => (b', None) | Err e => (b, Some e) end.

(** The object after the statement, and the exception it raised, if any. *)
Definition do_op (o : bop) (b : bs) : bs * option exc :=
  match o with
  | OAdd v => upd b (bs_add b v)
  | OSub v => upd b (bs_sub b v)
  | OMul v => upd b (bs_mul b v)
  | OFloorDiv v => upd b (bs_floordiv b v)
  | OCat v => upd b (bs_mod b v)
  | OShl v => upd b (bs_lshift b v)
  | OShr v => upd b (bs_rshift b v)
  | OAnd v => upd b (bs_and b v)
  | OOr v => upd b (bs_or b v)
  | OXor v => upd b (bs_xor b v)
  | OSetValue z => (bs_set_value b z, None)
  | OSetWidth w => match bs_set_width b w with
                   | (b', Ok _) => (b', None) | (b', Err e) => (b', Some e) end
  | OSetItem k v => upd b (bs_setitem b k v)
  | OInvert => upd b (bs_invert b)
  | OReverse => upd b (bs_reverse b)
  | OSigned => keep b (bs_signed b)
  | OEq v => keep b (bs_eq b v)
  | ONe v => keep b (bs_ne b v)
  | OLt v => keep b (bs_lt b v)
  | OLe v => keep b (bs_le b v)
  | OGt v => keep b (bs_gt b v)
  | OGe v => keep b (bs_ge b v)
  end.

(** A sequence of statements; execution stops at the first exception. *)
Fixpoint do_ops (l : list bop) (b : bs) : bs * option exc :=
  match l with
  | [] => (b, None)
  | o :: l' => match do_op o b with
               | (b', None) => do_ops l' b'
               | (b', Some e) => (b', Some e)
               end
  end.
