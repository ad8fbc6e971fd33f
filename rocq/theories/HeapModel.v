(** * Bitstring objects and their identity (bitstring.py, helpers.py:40-47)

    The other models treat a bitstring as a value and return what a method leaves in the
    object.  Here objects live in a heap and methods run statement by statement on their
    three attributes, so that one object can be reached through several names:
    [x %= x], [x[0:4] = x], [y = x.zero_extend(8); y += 1], [AddWithCarry(x, x, c)].
    Only the methods that change an object or return an existing one are spelled out;
    the results of the others (which read their arguments once, before anything is
    changed, and build a new object) are taken from BitstringModel.v. *)
From Verif Require Export HelpersModel.

(** A reference is the position of the object in the heap. *)
Definition ref := nat.
Definition heap := list bs.

(** Python values as methods get them. *)
Inductive hval :=
| HRef (r : ref)             (* a bitstring *)
| HVal (v : pyval).          (* anything else *)

Definition hget (h : heap) (r : ref) : bs := nth r h (mkbs 0 0 0).
Fixpoint hset (h : heap) (r : ref) (b : bs) : heap :=
  match h, r with
  | [], _ => []
  | _ :: h', O => b :: h'
  | x :: h', S r' => x :: hset h' r' b
  end.
(** The value a method sees when it reads the attributes of its argument. *)
Definition hread (h : heap) (v : hval) : pyval :=
  match v with HRef r => VBits (hget h r) | HVal v => v end.

(** ** Statements *)
Definition hcomp (A : Type) := heap -> heap * res A.
Definition hret {A} (a : A) : hcomp A := fun h => (h, Ok a).
Definition hbind {A B} (m : hcomp A) (f : A -> hcomp B) : hcomp B := fun h =>
  match m h with (h', Ok a) => f a h' | (h', Err e) => (h', Err e) end.
Notation "'hdo' x <- e ; k" := (hbind e (fun x => k))
  (at level 200, x name, e at level 100, k at level 200, right associativity).
(** A computation on values. *)
Definition hlift {A} (r : res A) : hcomp A := fun h => (h, r).
(** The three attributes. *)
Definition get_w (r : ref) : hcomp Z := fun h => (h, Ok (bw (hget h r))).
Definition get_v (r : ref) : hcomp Z := fun h => (h, Ok (bv (hget h r))).
Definition get_m (r : ref) : hcomp Z := fun h => (h, Ok (bm (hget h r))).
Definition set_w (r : ref) (w : Z) : hcomp unit := fun h =>
  (hset h r (mkbs w (bv (hget h r)) (bm (hget h r))), Ok tt).
Definition set_v (r : ref) (v : Z) : hcomp unit := fun h =>
  (hset h r (mkbs (bw (hget h r)) v (bm (hget h r))), Ok tt).
Definition set_m (r : ref) (m : Z) : hcomp unit := fun h =>
  (hset h r (mkbs (bw (hget h r)) (bv (hget h r)) m), Ok tt).
(** A new object. *)
Definition alloc (b : bs) : hcomp ref := fun h => ((h ++ [b])%list, Ok (List.length h)).
(** [bitstring(val, width)]: bitstring.py:26-62 *)
Definition h_new (v : hval) (width : option Z) : hcomp ref := fun h =>
  match bs_init (hread h v) width with
  | Ok b => alloc b h
  | Err e => (h, Err e)
  end.
(** A new object with the result of a function of values. *)
Definition h_fresh (f : bs -> pyval -> res bs) (x : ref) (o : hval) : hcomp ref := fun h =>
  match f (hget h x) (hread h o) with
  | Ok b => alloc b h
  | Err e => (h, Err e)
  end.

(** ** Methods *)

(** bitstring.py:294-299 *)
Definition h_set (self other : ref) : hcomp unit :=
  hdo w <- get_w other; hdo _ <- set_w self w;
  hdo m <- get_m other; hdo _ <- set_m self m;
  hdo v <- get_v other; set_v self v.

(** bitstring.py:323-325: returns [self] *)
Definition h_invert (self : ref) : hcomp ref :=
  hdo m <- get_m self; hdo v <- get_v self; hdo w <- get_w self;
  hdo t <- h_new (HVal (VInt (Z.land m (Z.lnot v)))) (Some w);
  hdo _ <- h_set self t;
  hret self.

(** bitstring.py:301-303: returns [self] *)
Definition h_reverse (self : ref) : hcomp ref :=
  hdo t <- h_fresh (fun b _ => bs_reversed b) self (HVal VNone);
  hdo _ <- h_set self t;
  hret self.

(** bitstring.py:72-83 *)
Definition h_signed (self : ref) : hcomp Z :=
  hdo w <- get_w self;
  if w <? 2 then hret 0 else
  hdo w <- get_w self;
  let w1 := w - 1 in
  hdo v <- get_v self;
  if negb (Z.land (Z.shiftr v w1) 1 =? 0) then
    hdo t <- h_invert self;
    hdo v <- get_v t;
    hret (- Z.land v (Z.shiftl 1 w1 - 1) - 1)
  else
    hdo v <- get_v self;
    hret (Z.land v (Z.shiftl 1 w1 - 1)).

(** bitstring.py:305-314: returns [self] if the width is already right *)
Definition h_sign_extend (self : ref) (width : Z) : hcomp ref :=
  hdo w <- get_w self;
  if width <? w then hlift (Err ValueError)
  else if width =? w then hret self
  else h_fresh (fun b _ => bs_sign_extend b width) self (HVal VNone).
(** bitstring.py:316-321 *)
Definition h_zero_extend (self : ref) (width : Z) : hcomp ref :=
  hdo w <- get_w self;
  if width <? w then hlift (Err ValueError)
  else if width =? w then hret self
  else h_new (HRef self) (Some width).

(** bitstring.py:423-473: the four arithmetic in-place methods differ in [f].  The
    answer [None] is NotImplemented. *)
Definition h_iarith (f : Z -> Z -> res Z) (self : ref) (other : hval) : hcomp (option ref) := fun h =>
  match arith_operand (hread h other) with
  | Err e => (h, Err e)
  | Ok None => (h, Ok None)
  | Ok (Some value) =>
    (hdo v <- get_v self;
     hdo v' <- hlift (f v value);
     hdo _ <- set_v self v';
     hdo v <- get_v self; hdo m <- get_m self;
     hdo _ <- set_v self (Z.land v m);
     hret (Some self)) h
  end.

(** bitstring.py:476-480: the attributes of [other] are read after [self] has its new
    width *)
Definition h_icat (self other : ref) : hcomp ref :=
  hdo w <- get_w self; hdo ow <- get_w other;
  hdo _ <- set_w self (w + ow);
  hdo w <- get_w self;
  hdo one <- hlift (py_shl 1 w);
  hdo _ <- set_m self (one - 1);
  hdo v <- get_v self; hdo ow <- get_w other;
  hdo s <- hlift (py_shl v ow);
  hdo ov <- get_v other;
  hdo _ <- set_v self (Z.lor s ov);
  hret self.
(** bitstring.py:475-490; [None] is NotImplemented *)
Definition h_imod (self : ref) (other : hval) : hcomp (option ref) :=
  let via (t : hcomp ref) := hdo r <- t; hdo s <- h_icat self r; hret (Some s) in
  match other with
  | HRef r => hdo s <- h_icat self r; hret (Some s)
  | HVal (VStr s) => via (h_new (HVal (VStr s)) None)
  | HVal (VInt z) =>
      if ((z =? 0) || (z =? 1))%bool then via (h_new (HVal (VInt z)) (Some 1)) else hlift (Err ValueError)
  | HVal (VSeq l) => via (h_new (HVal (VSeq l)) None)
  | HVal (VBytearray Py3 l) => via (h_new (HVal (VBytearray Py3 l)) None)
  | HVal (VBits b) => via (alloc b)
  | HVal _ => hret None
  end.

(** bitstring.py:492-510: [self.set(self.__op__(other)); return self].  Where [__op__]
    answers NotImplemented, [set] raises TypeError, which is what [f] gives then. *)
Definition h_iset (f : bs -> pyval -> res bs) (self : ref) (other : hval) : hcomp (option ref) :=
  hdo t <- h_fresh f self other;
  hdo _ <- h_set self t;
  hret (Some self).

(** bitstring.py:327-350: [b = bitstring(self); b.__iop__(other); return b]; the answer of
    the in-place method is dropped *)
Definition h_copy_op (iop : ref -> hval -> hcomp (option ref)) (self : ref) (other : hval) : hcomp ref :=
  hdo b <- h_new (HRef self) None;
  hdo _ <- iop b other;
  hret b.

(** The binary operators that a statement [x op= y] can name. *)
Inductive iop := IAdd | ISub | IMul | IFloorDiv | IMod | IShl | IShr | IAnd | IXor | IOr.

(** The in-place method *)
Definition h_imethod (op : iop) : ref -> hval -> hcomp (option ref) :=
  match op with
  | IAdd => h_iarith (fun x y => Ok (x + y))
  | ISub => h_iarith (fun x y => Ok (x - y))
  | IMul => h_iarith (fun x y => Ok (x * y))
  | IFloorDiv => h_iarith (fun x y => if y =? 0 then Err ZeroDivisionError else Ok (x / y))
  | IMod => h_imod
  | IShl => h_iset bs_lshift
  | IShr => h_iset bs_rshift
  | IAnd => h_iset bs_and
  | IXor => h_iset bs_xor
  | IOr => h_iset bs_or
  end.
(** The expression [x op y] *)
Definition h_method (op : iop) : ref -> hval -> hcomp ref :=
  match op with
  | IAdd | ISub | IMul | IFloorDiv | IMod => h_copy_op (h_imethod op)
  | IShl => h_fresh bs_lshift
  | IShr => h_fresh bs_rshift
  | IAnd => h_fresh bs_and
  | IXor => h_fresh bs_xor
  | IOr => h_fresh bs_or
  end.
(** The statement [x op= y]: the object the name [x] stands for afterwards.  If the
    in-place method answers NotImplemented, the interpreter takes [x op y]. *)
Definition h_assign (op : iop) (x : ref) (y : hval) : hcomp ref :=
  hdo r <- h_imethod op x y;
  match r with Some r => hret r | None => h_method op x y end.

(** bitstring.py:256-285 *)
Definition h_setitem (self : ref) (k : pykey) (value : hval) : hcomp unit :=
  match k with
  | KSlice s =>
    hdo w <- get_w self;
    hdo idx <- hlift (slice_indices s w);
    let '(start, stop, step) := idx in
    if negb (step =? 1) then hlift (Err ValueError) else
    hdo t <- (match value with
              | HRef r => hret r
              | HVal (VInt z) => h_new (HVal (VInt z)) None
              | HVal (VStr t) => h_new (HVal (VStr t)) None
              | HVal (VBits b) => alloc b
              | HVal _ => hlift (Err TypeError)
              end);
    hdo one <- hlift (py_shl 1 (stop - start));
    hdo mask <- hlift (py_shl (one - 1) start);
    hdo v <- get_v self;
    hdo _ <- set_v self (Z.land v (Z.lnot mask));
    hdo v <- get_v self;
    hdo u <- get_v t;
    hdo sv <- hlift (py_shl u start);
    set_v self (Z.lor v (Z.land sv mask))
  | KInt key =>
    hdo w <- get_w self;
    if w <=? key then hlift (Err IndexError) else
    hdo x <- (match value with
              | HRef r => hdo vw <- get_w r;
                          if negb (vw =? 1) then hlift (Err ValueError) else get_v r
              | HVal (VInt z) => hret z
              | HVal (VBits b) => if negb (bw b =? 1) then hlift (Err ValueError) else hret (bv b)
              | HVal _ => hlift (Err TypeError)
              end);
    hdo w <- get_w self;
    let key := if key <? 0 then w + key else key in
    hdo m <- get_m self;
    hdo one <- hlift (py_shl 1 key);
    let mask := Z.land m (Z.lnot one) in
    hdo v <- get_v self;
    hdo bit <- hlift (py_shl (Z.land x 1) key);
    set_v self (Z.lor (Z.land v mask) bit)
  | KOther => hlift (Err TypeError)
  end.

(** helpers.py:40-47: result, carry, overflow; the last two as numbers 0 and 1 *)
Definition h_AddWithCarry (x y c : ref) : hcomp (ref * Z * Z) :=
  hdo wx <- get_w x; hdo wy <- get_w y;
  hdo _ <- hlift (assert_ (wx =? wy));
  hdo ux <- get_v x; hdo uy <- get_v y; hdo uc <- get_v c;
  let unsigned_sum := ux + uy + uc in
  hdo sx <- h_signed x; hdo sy <- h_signed y; hdo uc <- get_v c;
  let signed_sum := sx + sy + uc in
  hdo wx <- get_w x;
  hdo result <- h_new (HVal (VInt unsigned_sum)) (Some wx);
  hdo ur <- get_v result;
  let carry_out := if ur =? unsigned_sum then 0 else 1 in
  hdo sr <- h_signed result;
  let overflow := if sr =? signed_sum then 0 else 1 in
  hret (result, carry_out, overflow).
