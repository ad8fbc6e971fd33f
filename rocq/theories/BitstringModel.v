(** * Model of /repo/cmdis/bitstring.py

    Simplifications common to the file:
    - an object is its triple of slots; in-place methods return the new triple;
    - [other]/[val] arguments range over [pyval]: the types the code tests for
      with isinstance, plus [VOther] for everything else (float, dict, ...);
    - a binary operator is modelled at the level of the expression the user
      writes (so a [NotImplemented] result is replaced by what the interpreter
      does next). *)
From Verif Require Export PyBase.

(** bitstring.py:23-24, the three [__slots__]. *)
Record bs := mkbs { bw : Z; bv : Z; bm : Z }.

Inductive pyval :=
| VNone
| VBits (b : bs)
| VInt (z : Z)
| VStr (s : string)
| VSeq (l : list Z)        (* list/tuple/range of ints *)
| VBytearray (py : pyver) (l : list Z)  (* a bytearray of that interpreter *)
| VOther.

(** bitstring.py:46 [functools.reduce(lambda x,y:(x << 1) | y, val)];
    TypeError on an empty sequence. *)
Definition reduce_bits (l : list Z) : res Z :=
  match l with
  | [] => Err TypeError
  | x :: l' => Ok (fold_left (fun x y => Z.lor (Z.shiftl x 1) y) l' x)
  end.

(** bitstring.py:60-62 *)
Definition bs_finish (w v : Z) : res bs :=
  let* one := py_shl 1 w in
  let m := one - 1 in
  Ok (mkbs w (Z.land v m) m).

(** bitstring.py:47-52: the bytes from the first on, least significant first *)
Definition or_bytes (l : list Z) : Z :=
  fold_left (fun v '(i, b) => Z.lor v (Z.shiftl b (i * 8)))
            (combine (py_range (Z.of_nat (List.length l))) l) 0.

(** bitstring.py:28-54: width and value before masking.  In Python 3 a bytearray is
    a [collections.Sequence] (MutableSequence.register(bytearray)), so lines 42-46
    handle it and the branch at lines 47-52 is never reached; in Python 2.7 it is not
    registered and lines 47-52 handle it. *)
Definition bs_raw (val : pyval) : res (Z * Z) :=
  match val with
  | VNone => Ok (0, 0)
  | VBits b => Ok (bw b, bv b)
  | VInt z => Ok (if Z.shiftl 1 32 <? z then 64 else 32, z)
  | VStr s => let* v := int_base2 s in Ok (strlen s, v)
  | VSeq l | VBytearray Py3 l => let* v := reduce_bits l in Ok (Z.of_nat (List.length l), v)
  | VBytearray Py2 l => Ok (Z.of_nat (List.length l) * 8, or_bytes l)
  | VOther => Err TypeError
  end.

(** bitstring.py:26-62 [__init__] *)
Definition bs_init (val : pyval) (width : option Z) : res bs :=
  let* '(w, v) := bs_raw val in
  bs_finish (match width with Some w' => w' | None => w end) v.

(** bitstring.py:68-70 value setter *)
Definition bs_set_value (b : bs) (v : Z) : bs := mkbs (bw b) (Z.land v (bm b)) (bm b).

(** bitstring.py:294-299 [set] *)
Definition bs_set (self other : bs) : bs := other.

(** bitstring.py:89-91 [inverted] *)
Definition bs_inverted (b : bs) : res bs :=
  bs_init (VInt (Z.land (bm b) (Z.lnot (bv b)))) (Some (bw b)).

(** bitstring.py:323-325 [invert] (in place): the object afterwards, which is
    also the returned object. *)
Definition bs_invert (b : bs) : res bs :=
  let* r := bs_init (VInt (Z.land (bm b) (Z.lnot (bv b)))) (Some (bw b)) in
  Ok (bs_set b r).

(** bitstring.py:72-83 [signed]: returns the object afterwards (line 80 calls
    the in-place [invert]) and the integer. *)
Definition bs_signed (b : bs) : res (bs * Z) :=
  if bw b <? 2 then Ok (b, 0) else
  let w1 := bw b - 1 in
  let s := Z.land (Z.shiftr (bv b) w1) 1 in
  if negb (s =? 0) then
    let* b' := bs_invert b in
    Ok (b', - Z.land (bv b') (Z.shiftl 1 w1 - 1) - 1)
  else Ok (b, Z.land (bv b) (Z.shiftl 1 w1 - 1)).

(** bitstring.py:85-87 *)
Definition bs_unsigned (b : bs) : Z := bv b.

(** bitstring.py:103-107 width setter.  On a negative width line 106 raises
    after line 105 has stored the new width. *)
Definition bs_set_width (b : bs) (w : Z) : bs * res unit :=
  match py_shl 1 w with
  | Err e => (mkbs w (bv b) (bm b), Err e)
  | Ok one => (mkbs w (Z.land (bv b) (one - 1)) (one - 1), Ok tt)
  end.

(** bitstring.py:117 [str((value >> i) & 1)] *)
Definition bit_str (v i : Z) : string := fmt_d (Z.land (Z.shiftr v i) 1).

(** bitstring.py:113-118 *)
Definition bs_binary_string (b : bs) : string :=
  fold_left (fun s i => (bit_str (bv b) i ++ s)%string) (py_range (bw b)) EmptyString.

(** bitstring.py:93-97 [reversed] *)
Definition bs_reversed (b : bs) : res bs :=
  bs_init (VStr (of_chars (rev (chars (bs_binary_string b))))) (Some (bw b)).

(** bitstring.py:301-303 [reverse] (in place) *)
Definition bs_reverse (b : bs) : res bs :=
  let* r := bs_reversed b in Ok (bs_set b r).

(** bitstring.py:120-125 *)
Definition bs_bytes (b : bs) : list Z :=
  map (fun i => Z.land (Z.shiftr (bv b) (i * 8)) 255) (py_range ((bw b + 7) / 8)).

(** [oct(v)[1:]] for [v >= 0]: Python 2 gives '0173' (and '0' for zero),
    Python 3 '0o173'. *)
Definition oct_tail (py : pyver) (v : Z) : string :=
  match py with
  | Py2 => if v =? 0 then EmptyString else digits 8 v
  | Py3 => String "o" (digits 8 v)
  end.

(** bitstring.py:127-141.  [rstrip('L')] only removes Python 2's long suffix. *)
Definition bs_base_string (py : pyver) (b : bs) (base : Z) : res string :=
  if base =? 2 then Ok (fmt_d (bw b) ++ "'b" ++ bs_binary_string b)%string
  else if base =? 8 then
    Ok (match py with
        | Py2 => (fmt_d (bw b) ++ "'o" ++ oct_tail Py2 (bv b))%string
        | Py3 => (fmt_d (bw b) ++ "'" ++ oct_tail Py3 (bv b))%string end)
  else if base =? 10 then Ok (fmt_d (bw b) ++ "'d" ++ fmt_d (bv b))%string
  else if base =? 16 then Ok (fmt_d (bw b) ++ "'h" ++ fmt_x (bv b))%string
  else Err ValueError.

(** bitstring.py:143-144; [__hash__] (146-147) is the hash of this string. *)
Definition bs_repr (b : bs) : string := (fmt_d (bw b) ++ "'b" ++ bs_binary_string b)%string.

(** bitstring.py:515-516 *)
Definition bs_hex (b : bs) : string :=
  (fmt_d (bw b) ++ "'h" ++ fmt_0x ((bw b + 3) / 4) (bv b))%string.

(** bitstring.py:149-160 for a bitstring argument *)
Definition bs_eqb (a b : bs) : bool := (bw a =? bw b) && (bv a =? bv b).

(** bitstring.py:149-160 [==]: the object afterwards and the result.  The
    negative-integer branch reads [signed]. *)
Definition bs_eq (a : bs) (other : pyval) : res (bs * bool) :=
  match other with
  | VInt z => if z <? 0 then (let* '(a', s) := bs_signed a in Ok (a', s =? z))
              else Ok (a, bv a =? z)
  | VStr s => let* o := bs_init (VStr s) None in Ok (a, bs_eqb a o)
  | VBits o => Ok (a, bs_eqb a o)
  | _ => Ok (a, false)   (* NotImplemented, then identity comparison *)
  end.

(** bitstring.py:162-163 [!=]; [not NotImplemented] is False. *)
Definition bs_ne (a : bs) (other : pyval) : res (bs * bool) :=
  match other with
  | VInt _ | VStr _ | VBits _ => let* '(a', r) := bs_eq a other in Ok (a', negb r)
  | _ => Ok (a, false)
  end.

(** bitstring.py:174-177 for a bitstring argument *)
Definition bs_ltb (a b : bs) : bool :=
  if bv a =? bv b then bw a <? bw b else bv a <? bv b.

(** bitstring.py:165-177 [<]; NotImplemented becomes TypeError (Python 3). *)
Definition bs_lt (a : bs) (other : pyval) : res (bs * bool) :=
  match other with
  | VInt z => if z <? 0 then (let* '(a', s) := bs_signed a in Ok (a', s <? z))
              else Ok (a, bv a <? z)
  | VStr s => let* o := bs_init (VStr s) None in Ok (a, bs_ltb a o)
  | VBits o => Ok (a, bs_ltb a o)
  | _ => Err TypeError
  end.

(** bitstring.py:179-180 [<=]; with an unsupported operand [__eq__] returns the
    truthy NotImplemented, and the comparison ends in TypeError (Python 3). *)
Definition bs_le (a : bs) (other : pyval) : res (bs * bool) :=
  match other with
  | VInt _ | VStr _ | VBits _ =>
    let* '(a', r) := bs_eq a other in
    if r then Ok (a', true) else bs_lt a' other
  | _ => Err TypeError
  end.

(** bitstring.py:182-183 [>] = not __le__; [not NotImplemented] is False. *)
Definition bs_gt (a : bs) (other : pyval) : res (bs * bool) :=
  match other with
  | VInt _ | VStr _ | VBits _ => let* '(a', r) := bs_le a other in Ok (a', negb r)
  | _ => Ok (a, false)
  end.

(** bitstring.py:185-186 [>=] = not __lt__ *)
Definition bs_ge (a : bs) (other : pyval) : res (bs * bool) :=
  match other with
  | VInt _ | VStr _ | VBits _ => let* '(a', r) := bs_lt a other in Ok (a', negb r)
  | _ => Ok (a, false)
  end.

(** Truth value of a bitstring in a condition: bitstring.py:188-189
    [__nonzero__] on Python 2; Python 3 ignores [__nonzero__] and uses
    [__len__] (191-192). *)
Definition bs_truthy (py : pyver) (b : bs) : bool :=
  match py with Py2 => negb (bv b =? 0) | Py3 => negb (bw b =? 0) end.

(** bitstring.py:200-203 *)
Definition bs_get_bit (b : bs) (bitpos : Z) : res bs :=
  let bitpos := if bitpos <? 0 then bw b + bitpos else bitpos in
  let* x := py_shr (bv b) bitpos in
  bs_init (VInt (Z.land x 1)) (Some 1).

(** bitstring.py:205-206 *)
Definition bs_get_bit_value (b : bs) (bitpos : Z) : res Z :=
  let* x := py_shr (bv b) bitpos in Ok (Z.land x 1).

(** bitstring.py:208-214; the loop, with fuel *)
Fixpoint count_loop (fuel : nat) (v count : Z) : res Z :=
  if v =? 0 then Ok count else
  match fuel with
  | O => Err OutOfFuel
  | S f => count_loop f (Z.shiftr v 1) (count + Z.land v 1)
  end.
Definition bs_bit_count (b : bs) : res Z :=
  count_loop (S (Z.to_nat (Z.log2 (bv b)))) (bv b) 0.

(** bitstring.py:216-226 *)
Definition bs_is_zero (b : bs) : bool := bv b =? 0.
Definition bs_is_ones (b : bs) : bool := bv b =? bm b.
Definition bs_is_zero_bit (b : bs) : res bs :=
  bs_init (VStr (if bs_is_zero b then "1" else "0")) None.
Definition bs_is_ones_bit (b : bs) : res bs :=
  bs_init (VStr (if bs_is_ones b then "1" else "0")) None.

(** bitstring.py:228-234 *)
Fixpoint lowest_loop (idx : list Z) (v w : Z) : Z :=
  match idx with
  | [] => w
  | n :: idx' => if negb (Z.land v 1 =? 0) then n else lowest_loop idx' (Z.shiftr v 1) w
  end.
Definition bs_lowest_set_bit (b : bs) : Z := lowest_loop (py_range (bw b)) (bv b) (bw b).

(** bitstring.py:236-240; [range(width-1,-1,-1)] is [rev (py_range width)] *)
Fixpoint highest_loop (idx : list Z) (v : Z) : Z :=
  match idx with
  | [] => -1
  | n :: idx' => if negb (Z.land (Z.shiftr v n) 1 =? 0) then n else highest_loop idx' v
  end.
Definition bs_highest_set_bit (b : bs) : Z := highest_loop (rev (py_range (bw b))) (bv b).

(** bitstring.py:476-480 [__imod__] with a bitstring: concatenation *)
Definition bs_cat (a b : bs) : res bs :=
  let w := bw a + bw b in
  let* one := py_shl 1 w in
  let* hi := py_shl (bv a) (bw b) in
  Ok (mkbs w (Z.lor hi (bv b)) (one - 1)).

(** bitstring.py:347-350, 475-490 [a % other] (and [a %= other]).  With an
    unsupported operand [__mod__] ignores NotImplemented and returns the copy. *)
Definition bs_mod (a : bs) (other : pyval) : res bs :=
  match other with
  | VBits b => bs_cat a b
  | VStr s => let* b := bs_init (VStr s) None in bs_cat a b
  | VInt z => if (z =? 0) || (z =? 1)
              then let* b := bs_init (VInt z) (Some 1) in bs_cat a b
              else Err ValueError
  | VSeq l => let* b := bs_init (VSeq l) None in bs_cat a b
  | VBytearray Py3 l => let* b := bs_init (VBytearray Py3 l) None in bs_cat a b
  | VBytearray Py2 _ | VNone | VOther => bs_init (VBits a) None
  end.

(** bitstring.py:243-250: the loop building a slice, with fuel *)
Fixpoint slice_loop (fuel : nat) (b : bs) (i stop step : Z) (acc : bs) : res bs :=
  if (if 0 <? step then i <? stop else stop <? i) then
    match fuel with
    | O => Err OutOfFuel
    | S f => let* bit := bs_get_bit b i in
             let* acc' := bs_mod bit (VBits acc) in
             slice_loop f b (i + step) stop step acc'
    end
  else Ok acc.

Inductive pykey := KInt (i : Z) | KSlice (s : pyslice) | KOther.

Definition bs_getslice (b : bs) (s : pyslice) : res bs :=
  let* '(start, stop, step) := slice_indices s (bw b) in
  let* empty := bs_init VNone None in
  slice_loop (Z.to_nat (Z.abs (stop - start))) b start stop step empty.

(** bitstring.py:242-254 *)
Definition bs_getitem (b : bs) (k : pykey) : res bs :=
  match k with
  | KSlice s => bs_getslice b s
  | KInt i => bs_get_bit b i
  | KOther => Err TypeError
  end.

(** bitstring.py:257-270 slice assignment *)
Definition bs_setslice (b : bs) (s : pyslice) (value : pyval) : res bs :=
  let* '(start, stop, step) := slice_indices s (bw b) in
  if negb (step =? 1) then Err ValueError else
  let* value := match value with
                | VInt z => bs_init (VInt z) None
                | VStr t => bs_init (VStr t) None
                | VBits v => Ok v
                | _ => Err TypeError end in
  let* one := py_shl 1 (stop - start) in
  let* mask := py_shl (one - 1) start in
  let* sv := py_shl (bv value) start in
  Ok (mkbs (bw b) (Z.lor (Z.land (bv b) (Z.lnot mask)) (Z.land sv mask)) (bm b)).

(** bitstring.py:272-285 single bit assignment *)
Definition bs_setbit (b : bs) (key : Z) (value : pyval) : res bs :=
  if bw b <=? key then Err IndexError else
  let* v := match value with
            | VBits v => if negb (bw v =? 1) then Err ValueError else Ok (bv v)
            | VInt z => Ok z
            | _ => Err TypeError end in
  let key := if key <? 0 then bw b + key else key in
  let* one := py_shl 1 key in
  let mask := Z.land (bm b) (Z.lnot one) in
  let* bit := py_shl (Z.land v 1) key in
  Ok (mkbs (bw b) (Z.lor (Z.land (bv b) mask) bit) (bm b)).

(** bitstring.py:256-285; all checks precede the first assignment to the object,
    so an exception leaves it unchanged. *)
Definition bs_setitem (b : bs) (k : pykey) (value : pyval) : res bs :=
  match k with
  | KSlice s => bs_setslice b s value
  | KInt i => bs_setbit b i value
  | KOther => Err TypeError
  end.

(** bitstring.py:290-292 *)
Definition bs_iter (b : bs) : list Z :=
  map (fun i => Z.land (Z.shiftr (bv b) i) 1) (py_range (bw b)).

(** bitstring.py:305-314; [[s] * d] has [d >= 1] elements *)
Definition bs_sign_extend (b : bs) (width : Z) : res bs :=
  if width <? bw b then Err ValueError
  else if width =? bw b then Ok b
  else
    let w1 := bw b - 1 in
    let* x := py_shr (bv b) w1 in
    let s := Z.land x 1 in
    let d := width - bw b in
    let* h := bs_init (VSeq (repeat s (Z.to_nat d))) None in
    bs_mod h (VBits b).

(** bitstring.py:316-321 *)
Definition bs_zero_extend (b : bs) (width : Z) : res bs :=
  if width <? bw b then Err ValueError
  else if width =? bw b then Ok b
  else bs_init (VBits b) (Some width).

(** The operand conversion shared by __iadd__/__isub__/__imul__/__ifloordiv__
    (bitstring.py:424-431, 437-444, 450-457, 463-470); [None] is NotImplemented. *)
Definition arith_operand (other : pyval) : res (option Z) :=
  match other with
  | VBits b => Ok (Some (bv b))
  | VInt z => Ok (Some z)
  | VStr s => let* b := bs_init (VStr s) None in Ok (Some (bv b))
  | _ => Ok None
  end.

(** bitstring.py:327-345 with 423-473: [a + other] etc.  The copy made by
    [bitstring(self)] is [bs_init (VBits a) None]; NotImplemented from the
    in-place method is ignored, so the copy is returned. *)
Definition bs_arith (f : Z -> Z -> res Z) (a : bs) (other : pyval) : res bs :=
  let* b := bs_init (VBits a) None in
  let* o := arith_operand other in
  match o with
  | None => Ok b
  | Some value => let* v := f (bv b) value in Ok (mkbs (bw b) (Z.land v (bm b)) (bm b))
  end.
(** bitstring.py:432-433, 445-446, 458-459, 471-472 *)
Definition bs_add : bs -> pyval -> res bs := bs_arith (fun x y => Ok (x + y)).
Definition bs_sub : bs -> pyval -> res bs := bs_arith (fun x y => Ok (x - y)).
Definition bs_mul : bs -> pyval -> res bs := bs_arith (fun x y => Ok (x * y)).
Definition bs_floordiv : bs -> pyval -> res bs :=
  bs_arith (fun x y => if y =? 0 then Err ZeroDivisionError else Ok (x / y)).

(** bitstring.py:352-366; NotImplemented ends in TypeError *)
Definition bs_lshift (a : bs) (other : pyval) : res bs :=
  match other with
  | VInt n => let* v := py_shl (bv a) n in bs_init (VInt v) (Some (bw a))
  | _ => Err TypeError
  end.
Definition bs_rshift (a : bs) (other : pyval) : res bs :=
  match other with
  | VInt n => let* v := py_shr (bv a) n in bs_init (VInt v) (Some (bw a))
  | _ => Err TypeError
  end.

(** Operand of &, ^, | as an int (bitstring.py:369-377, 380-387, 390-397) *)
Definition bit_operand (other : pyval) : res Z :=
  match other with
  | VBits b => Ok (bv b)
  | VInt z => Ok z
  | VStr s => let* b := bs_init (VStr s) None in Ok (bv b)
  | _ => Err TypeError
  end.
(** bitstring.py:381, 391: result width of ^ and | *)
Definition wide_operand (a : bs) (other : pyval) : Z :=
  match other with VBits b => Z.max (bw a) (bw b) | _ => bw a end.

(** bitstring.py:368-377: line 372 overrides line 370, the width is self's *)
Definition bs_and (a : bs) (other : pyval) : res bs :=
  let* o := bit_operand other in bs_init (VInt (Z.land (bv a) o)) (Some (bw a)).
(** bitstring.py:379-387 *)
Definition bs_xor (a : bs) (other : pyval) : res bs :=
  let* o := bit_operand other in bs_init (VInt (Z.lxor (bv a) o)) (Some (wide_operand a other)).
(** bitstring.py:389-397 *)
Definition bs_or (a : bs) (other : pyval) : res bs :=
  let* o := bit_operand other in bs_init (VInt (Z.lor (bv a) o)) (Some (wide_operand a other)).

(** bitstring.py:399-421 reflected operators: [other OP self].  These are the methods;
    for a str or bytearray on the left of [%] the interpreter formats the text and does
    not call [__rmod__]. *)
Definition bs_reflected (op : bs -> pyval -> res bs) (self : bs) (other : pyval) : res bs :=
  let* o := bs_init other None in op o (VBits self).
Definition bs_radd := bs_reflected bs_add.
Definition bs_rsub := bs_reflected bs_sub.
Definition bs_rmul := bs_reflected bs_mul.
Definition bs_rfloordiv := bs_reflected bs_floordiv.
Definition bs_rmod := bs_reflected bs_mod.
Definition bs_rand := bs_reflected bs_and.
Definition bs_rxor := bs_reflected bs_xor.
Definition bs_ror := bs_reflected bs_or.

(** bitstring.py:518-525 *)
Definition bit0 : bs := mkbs 1 0 1.
Definition bit1 : bs := mkbs 1 1 1.
Definition zeros (count : Z) : res bs := bs_init (VStr (repeat_char "0" (Z.to_nat count))) None.
Definition ones (count : Z) : res bs := bs_init (VStr (repeat_char "1" (Z.to_nat count))) None.
