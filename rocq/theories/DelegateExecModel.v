(** * Execution of instructions over any delegate (instructions.py, decoder.py:56-60, model.py:131-133)

    [ExecModel.v] runs instructions on a [CpuModel] whose delegate is the mock.  Here the delegate
    is any object ([DelegateModel.v]) whose methods may change it, answer anything and raise: the
    order and the number of the calls it gets are part of the model.  What only computes is shared
    with [ExecModel.v].  A [CpuModel] without delegate is in
    [AloneModel.v]. *)
From Verif Require Export ExecModel DelegateModel.

Section Run.
Context {S : Type}.
Variable d : delegate S.

Record dst := mkdst { d_state : S; d_self : insn }.
Definition dcomp (A : Type) := dst -> dst * res A.

Definition dret {A} (a : A) : dcomp A := fun s => (s, Ok a).
Definition dfail {A} (e : exc) : dcomp A := fun s => (s, Err e).
Definition dbind {A B} (m : dcomp A) (f : A -> dcomp B) : dcomp B := fun s =>
  match m s with (s', Ok a) => f a s' | (s', Err e) => (s', Err e) end.
Notation "'go' x <- e ; k" := (dbind e (fun x => k))
  (at level 200, x name, e at level 100, k at level 200, right associativity).
Notation "'go' ' x <- e ; k" := (dbind e (fun x => k))
  (at level 200, x strict pattern, e at level 100, k at level 200, right associativity).

(** A computation that does not touch the state. *)
Definition dlift {A} (r : res A) : dcomp A := fun s => (s, r).
(** A use of the CPU model, which may call the delegate. *)
Definition dask {A} (f : S -> S * res A) : dcomp A := fun s =>
  let '(x, r) := f (d_state s) in (mkdst x (d_self s), r).
(** [self.x]; AttributeError if the attribute does not exist. *)
Definition dattr {A} (f : attrs -> option A) : dcomp A := fun s =>
  (s, match f (i_attrs (d_self s)) with Some a => Ok a | None => Err AttributeError end).
(** [hasattr(self, 'x')] *)
Definition dhasattr {A} (f : attrs -> option A) : dcomp bool := fun s =>
  (s, Ok (match f (i_attrs (d_self s)) with Some _ => true | None => false end)).
(** [self.x = v] *)
Definition dsetattr (f : attrs -> attrs) : dcomp unit := fun s =>
  (mkdst (d_state s) (set_attrs f (d_self s)), Ok tt).
(** [self.size], decoder.py:40-42 *)
Definition dsize : dcomp Z := fun s => (s, Ok (i_size (d_self s))).

(** [cpu.read_register(reg)], [cpu.write_register(reg, v)] and the properties made of them *)
Definition dread (reg : regref) : dcomp bs := dask (fun s => g_use (g_read_register (Some d) reg s) Ok).
Definition dwrite (reg : regref) (v : num) : dcomp unit := dask (g_write_register (Some d) reg v).
(** [cpu.read_memory(address, n)], [cpu.write_memory(address, v, n)] *)
Definition dload (address : bs) (n : Z) : dcomp bs := dask (fun s => g_use (g_read_memory (Some d) (NBits address) n s) Ok).
Definition dstore (address v : bs) (n : Z) : dcomp unit := dask (g_write_memory (Some d) (NBits address) (NBits v) n).
(** [cpu.r[k]], [cpu.r[k] = v] *)
Definition drget (k : Z) : dcomp bs := dask (fun s => g_use (g_ri_get (Some d) 0 15 k s) Ok).
Definition drset (k : Z) (v : bs) : dcomp unit := dask (g_ri_set (Some d) 0 15 k (NBits v)).
(** [cpu.apsr.f], [cpu.apsr.f = v] *)
Definition dfget (f : flag) : dcomp bs := dask (g_apsr_get (Some d) f).
Definition dfset (f : flag) (v : bs) : dcomp unit := dask (g_apsr_set (Some d) f (VBits v)).
(** [cpu.pc += n] *)
Definition dpc_add (n : Z) : dcomp unit :=
  go pc <- dread (RName "pc");
  go pc' <- dlift (bs_add pc (VInt n));
  dwrite (RName "pc") (NBits pc').
(** [cpu.pc += self.size] *)
Definition dpc_next : dcomp unit := go n <- dsize; dpc_add n.

(** The operand object was [self.imm32] itself ([shared]): what is done to the
    operand is done to the attribute. *)
Definition dput_imm (shared : bool) (v : bs) : dcomp unit :=
  if shared then dsetattr (with_imm32 v) else dret tt.

(** instructions.py:41-55; [carry] and [overflow] may be None *)
Definition dset_flags (result : bs) (carry overflow : option bs) : dcomp unit :=
  go sf <- dattr a_setflags;
  let on := match sf with Always => true | Never => false | NotInITBlock => negb in_it_block end in
  if on then
    go n <- dlift (bs_getitem result (KInt 31));
    go _ <- dfset FN n;
    go z <- dlift (bs_is_zero_bit result);
    go _ <- dfset FZ z;
    go _ <- (match carry with Some b => dfset FC b | None => dret tt end);
    match overflow with Some b => dfset FV b | None => dret tt end
  else dret tt.

(** instructions.py:57-58 and decoder.py:56-57 *)
Definition deval_Instruction : dcomp unit := dpc_next.

(** [self.imm32 if hasattr(self, 'imm32') else cpu.r[self.m]], and whether the
    object is the attribute *)
Definition dimm_or_m : dcomp (bool * bs) :=
  go h <- dhasattr a_imm32;
  if h then go v <- dattr a_imm32; dret (true, v)
  else go m <- dattr a_m; go v <- drget m; dret (false, v).

(** AddWithCarry on fresh [x] and an operand [y] that may be [self.imm32] *)
Definition dadd_shared (x : bs) (shared : bool) (y c : bs) : dcomp (bs * bs * bs) :=
  go ' ((_, y'), r) <- dlift (AddWithCarry x y c);
  go _ <- dput_imm shared y';
  dret r.

(** instructions.py:66-78 *)
Definition deval_AddSub : dcomp unit :=
  go sub <- dattr a_sub;
  go ' (result, carry, overflow) <-
    (if sub then
       go n <- dattr a_n;
       go x <- drget n;
       go ' (shared, y) <- dimm_or_m;
       go y' <- dlift (bs_invert y);
       go _ <- dput_imm shared y';
       go uc <- dattr a_use_carry;
       go c <- (if uc then dfget FC else dret bit1);
       dadd_shared x shared y' c
     else
       go n <- dattr a_n;
       go x <- drget n;
       go ' (shared, y) <- dimm_or_m;
       go uc <- dattr a_use_carry;
       go c <- (if uc then dfget FC else dret bit0);
       dadd_shared x shared y c);
  go d <- dattr a_d;
  go _ <- drset d result;
  go _ <- dset_flags result (Some carry) (Some overflow);
  dpc_next.

(** instructions.py:81-85 *)
Definition deval_BitOp : dcomp unit :=
  go op <- dattr a_op;
  go n <- dattr a_n;
  go x <- drget n;
  go m <- dattr a_m;
  go y <- drget m;
  go result <- dlift (apply_op op x y);
  go d <- dattr a_d;
  go _ <- drset d result;
  go _ <- dset_flags result None None;
  dpc_next.

(** instructions.py:88-92 *)
Definition deval_BitClear : dcomp unit :=
  go n <- dattr a_n;
  go x <- drget n;
  go m <- dattr a_m;
  go y <- drget m;
  go y' <- dlift (bs_invert y);
  go result <- dlift (bs_and x (VBits y'));
  go d <- dattr a_d;
  go _ <- drset d result;
  go _ <- dset_flags result None None;
  dpc_next.

(** instructions.py:95-103 *)
Definition deval_ShiftOp : dcomp unit :=
  go h <- dhasattr a_shift_n;
  go shift_n <- (if h then dattr a_shift_n
                 else go m <- dattr a_m; go y <- drget m;
                      go b <- dlift (bs_getitem y (KSlice (sl 0 8))); dret (bs_unsigned b));
  go n <- dattr a_n;
  go x <- drget n;
  go ty <- dattr a_type;
  go c <- dfget FC;
  go ' (result, carry) <- dlift (Shift_C x ty shift_n c);
  go d <- dattr a_d;
  go _ <- drset d result;
  go _ <- dset_flags result (Some carry) None;
  dpc_next.

(** instructions.py:203-207 *)
Definition deval_ReverseSubtract : dcomp unit :=
  go n <- dattr a_n;
  go x <- drget n;
  go x' <- dlift (bs_invert x);
  go y <- dattr a_imm32;
  go ' (result, carry, overflow) <- dadd_shared x' true y bit1;
  go d <- dattr a_d;
  go _ <- drset d result;
  go _ <- dset_flags result (Some carry) (Some overflow);
  dpc_next.

(** instructions.py:231-237 *)
Definition deval_Multiply : dcomp unit :=
  go n <- dattr a_n;
  go x <- drget n;
  go ' (_, operand1) <- dlift (bs_signed x);
  go m <- dattr a_m;
  go y <- drget m;
  go ' (_, operand2) <- dlift (bs_signed y);
  go result <- dlift (bs_init (VInt (operand1 * operand2)) (Some 32));
  go d <- dattr a_d;
  go _ <- drset d result;
  go _ <- dset_flags result None None;
  dpc_next.

(** instructions.py:260-263 *)
Definition deval_AddressToRegister : dcomp unit :=
  go add <- dattr a_add;
  go pc <- dask (g_pc_for_instr (Some d));
  go base <- dlift (Align_bits pc 4);
  go imm <- dattr a_imm32;
  go result <- dlift (if add then bs_add base (VBits imm) else bs_sub base (VBits imm));
  go d <- dattr a_d;
  go _ <- drset d result;
  dpc_next.

(** instructions.py:282-289 *)
Definition deval_Extend : dcomp unit :=
  go m <- dattr a_m;
  go x <- drget m;
  go rot <- dattr a_rotation;
  go y <- dlift (ROR x rot);
  go w <- dattr a_width;
  go rotated <- dlift (bs_getitem y (KSlice (sl 0 w)));
  go sgn <- dattr a_signed;
  go result <- dlift (if sgn then bs_sign_extend rotated 32 else bs_zero_extend rotated 32);
  go d <- dattr a_d;
  go _ <- drset d result;
  dpc_next.

(** instructions.py:316-333 *)
Definition deval_ByteReverse : dcomp unit :=
  go r0 <- dlift (zeros 32);
  go m <- dattr a_m;
  go x <- drget m;
  go w <- dattr a_width;
  go result <-
    (if w =? 4 then
       dlift (let* r := move_slice r0 x 24 32 0 8 in
             let* r := move_slice r x 16 24 8 16 in
             let* r := move_slice r x 8 16 16 24 in
             move_slice r x 0 8 24 32)
     else if w =? 2 then
       go sgn <- dattr a_signed;
       if negb sgn then
         dlift (let* r := move_slice r0 x 24 32 16 24 in
               let* r := move_slice r x 16 24 24 32 in
               let* r := move_slice r x 8 16 0 8 in
               move_slice r x 0 8 8 16)
       else
         dlift (let* lo := bs_getitem x (KSlice (sl 0 8)) in
               let* ext := bs_sign_extend lo 24 in
               let* r := bs_setitem r0 (KSlice (sl 8 32)) (VBits ext) in
               move_slice r x 0 8 8 16)
     else dret r0);
  go d <- dattr a_d;
  go _ <- drset d result;
  dpc_next.

(** instructions.py:360-371 *)
Definition deval_Move : dcomp unit :=
  go h <- dhasattr a_m;
  go ' (shared, result) <-
    (if h then
       go m <- dattr a_m;
       go v <- drget m;
       go _ <- (if m =? 15 then dsetattr (with_setflags Never) else dret tt);
       dret (false, v)
     else go v <- dattr a_imm32; dret (true, v));
  go neg <- dattr a_negate;
  go result <- (if neg then go r <- dlift (bs_invert result); go _ <- dput_imm shared r; dret r else dret result);
  go d <- dattr a_d;
  go _ <- drset d result;
  go c <- dfget FC;
  go _ <- dset_flags result (Some c) None;
  dpc_next.

(** instructions.py:428-433: line 429 names an undefined variable *)
Definition deval_ShiftedMoveNegate : dcomp unit := dfail NameError.

(** instructions.py:452-467 *)
Definition deval_Compare : dcomp unit :=
  go h <- dhasattr a_m;
  go ' (shared, y) <-
    (if h then go m <- dattr a_m; go v <- drget m; dret (false, v)
     else go v <- dattr a_imm32; dret (true, v));
  go neg <- dattr a_negate;
  go ' (y, carry_in) <-
    (if neg then go y' <- dlift (bs_invert y); go _ <- dput_imm shared y'; dret (y', bit1)
     else dret (y, bit0));
  go n <- dattr a_n;
  go x <- drget n;
  go ' (result, carry, overflow) <- dadd_shared x shared y carry_in;
  go b <- dlift (bs_getitem result (KInt 31));
  go _ <- dfset FN b;
  go z <- dlift (bs_is_zero_bit result);
  go _ <- dfset FZ z;
  go _ <- dfset FC carry;
  go _ <- dfset FV overflow;
  dpc_next.

(** instructions.py:501-507 *)
Definition deval_Test : dcomp unit :=
  go m <- dattr a_m;
  go y <- drget m;
  go ty <- dattr a_shift_t;
  go amount <- dattr a_shift_n;
  go c <- dfget FC;
  go ' (shifted, carry) <- dlift (Shift_C y ty amount c);
  go n <- dattr a_n;
  go x <- drget n;
  go result <- dlift (bs_and x (VBits shifted));
  go b <- dlift (bs_getitem result (KInt 31));
  go _ <- dfset FN b;
  go z <- dlift (bs_is_zero_bit result);
  go _ <- dfset FZ z;
  go _ <- dfset FC carry;
  dpc_next.

(** [apsr.f == k], [apsr.n == apsr.v], [apsr.n != apsr.v] in the lambdas *)
Definition dflag_is (f : flag) (k : Z) : dcomp bool :=
  go b <- dfget f; go ' (_, r) <- dlift (bs_eq b (VInt k)); dret r.
Definition dnv_equal : dcomp bool :=
  go n <- dfget FN; go v <- dfget FV; go ' (_, r) <- dlift (bs_eq n (VBits v)); dret r.
Definition dnv_differ : dcomp bool :=
  go n <- dfget FN; go v <- dfget FV; go ' (_, r) <- dlift (bs_ne n (VBits v)); dret r.
Definition dand_then (a b : dcomp bool) : dcomp bool := go x <- a; if x then b else dret false.
Definition dor_else (a b : dcomp bool) : dcomp bool := go x <- a; if x then dret true else b.

(** instructions.py:532-549 [CONDITIONS[k].expr]; KeyError for other keys *)
Definition dcondition_expr (k : Z) : dcomp bool :=
  if k =? 0 then dflag_is FZ 1
  else if k =? 1 then dflag_is FZ 0
  else if k =? 2 then dflag_is FC 1
  else if k =? 3 then dflag_is FC 0
  else if k =? 4 then dflag_is FN 1
  else if k =? 5 then dflag_is FN 0
  else if k =? 6 then dflag_is FV 1
  else if k =? 7 then dflag_is FV 0
  else if k =? 8 then dand_then (dflag_is FC 1) (dflag_is FZ 0)
  else if k =? 9 then dor_else (dflag_is FC 0) (dflag_is FZ 1)
  else if k =? 10 then dnv_equal
  else if k =? 11 then dnv_differ
  else if k =? 12 then dand_then (dflag_is FZ 0) dnv_equal
  else if k =? 13 then dor_else (dflag_is FZ 1) dnv_differ
  else if k =? 14 then dret true
  else if k =? 15 then dret true
  else dfail KeyError.

(** instructions.py:558-574; the key of CONDITIONS stands for [self.cond] *)
Definition deval_Branch : dcomp unit :=
  go k <- dattr a_cond;
  go taken <- dcondition_expr k;
  if taken then
    go pc <- dask (g_pc_for_instr (Some d));
    go delta <- dattr a_pc_delta;
    go next_instr <- dlift (bs_add pc (VInt delta));
    go link <- dattr a_with_link;
    go _ <- (if link then go l <- dlift (bs_or next_instr (VInt 1)); dwrite (RName "lr") (NBits l)
             else dret tt);
    go h <- dhasattr a_m;
    if h then
      go m <- dattr a_m;
      go v <- drget m;
      go target <- dlift (bs_init (VBits v) None);
      go target <- dlift (bs_setitem target (KInt 0) (VInt 0));
      dwrite (RName "pc") (NBits target)
    else
      go imm <- dattr a_imm32;
      go target <- dlift (bs_add next_instr (VBits imm));
      dwrite (RName "pc") (NBits target)
  else dpc_next.

(** instructions.py:620-625, 643-648: offset, offset address, address *)
Definition daddress_of : dcomp (bs * bs) :=
  go h <- dhasattr a_imm32;
  go offset <- (if h then dattr a_imm32
                else go m <- dattr a_m; go y <- drget m; go ty <- dattr a_shift_t; go amount <- dattr a_shift_n;
                     go c <- dfget FC; dlift (Shift y ty amount c));
  go add <- dattr a_add;
  go n <- dattr a_n;
  go base <- drget n;
  go offset_addr <- dlift (if add then bs_add base (VBits offset) else bs_sub base (VBits offset));
  go index <- dattr a_index;
  go address <- (if index then dret offset_addr else go n <- dattr a_n; drget n);
  dret (offset_addr, address).

(** instructions.py:619-634 *)
Definition deval_Load : dcomp unit :=
  go ' (offset_addr, address) <- daddress_of;
  go ms <- dattr a_memsize;
  go data <- dload address ms;
  go wback <- dattr a_wback;
  go _ <- (if wback then go n <- dattr a_n; drset n offset_addr else dret tt);
  go sgn <- dattr a_signed;
  go data <- dlift (if sgn then bs_sign_extend data 32 else bs_zero_extend data 32);
  go t <- dattr a_t;
  go _ <- drset t data;
  dpc_next.

(** instructions.py:642-650 *)
Definition deval_Store : dcomp unit :=
  go ' (_, address) <- daddress_of;
  go t <- dattr a_t;
  go v <- drget t;
  go ms <- dattr a_memsize;
  go data <- dlift (bs_getitem v (KSlice (sl 0 ms)));
  go _ <- dstore address data ms;
  dpc_next.

(** instructions.py:718-727 *)
Definition deval_LoadLiteral : dcomp unit :=
  go pc <- dask (g_pc_for_instr (Some d));
  go base <- dlift (Align_bits pc 4);
  go add <- dattr a_add;
  go imm <- dattr a_imm32;
  go address <- dlift (if add then bs_add base (VBits imm) else bs_sub base (VBits imm));
  go ms <- dattr a_memsize;
  go data <- dload address ms;
  go sgn <- dattr a_signed;
  go data <- dlift (if sgn then bs_sign_extend data 32 else bs_zero_extend data 32);
  go t <- dattr a_t;
  go _ <- drset t data;
  dpc_next.

(** [if self.registers[i]:] *)
Definition dlisted (py : pyver) (i : Z) : dcomp bool :=
  go regs <- dattr a_registers;
  go b <- dlift (bs_getitem regs (KInt i));
  dret (bs_truthy py b).
(** [4 * self.registers.bit_count()] *)
Definition dlist_bytes : dcomp Z :=
  go regs <- dattr a_registers;
  go n <- dlift (bs_bit_count regs);
  dret (4 * n).

(** instructions.py:769-772, 852-858: store loop; the address afterwards *)
Fixpoint dstore_loop (py : pyver) (l : list Z) (address : bs) : dcomp bs :=
  match l with
  | [] => dret address
  | i :: l' =>
    go b <- dlisted py i;
    if b then
      go v <- drget i;
      go _ <- dstore address v 32;
      go address <- dlift (bs_add address (VInt 4));
      dstore_loop py l' address
    else dstore_loop py l' address
  end.
(** instructions.py:779-782, 838-841: load loop; the address afterwards *)
Fixpoint dload_loop (py : pyver) (l : list Z) (address : bs) : dcomp bs :=
  match l with
  | [] => dret address
  | i :: l' =>
    go b <- dlisted py i;
    if b then
      go v <- dload address 32;
      go _ <- drset i v;
      go address <- dlift (bs_add address (VInt 4));
      dload_loop py l' address
    else dload_loop py l' address
  end.
(** instructions.py:783-786, 842-845 *)
Definition dload_pc (py : pyver) (address : bs) : dcomp unit :=
  go b <- dlisted py 15;
  if b then
    go v <- dload address 32;
    dwrite (RName "pc") (NBits v)
  else dpc_next.

(** instructions.py:766-773 *)
Definition deval_Push (py : pyver) : dcomp unit :=
  go sp <- dread (RName "sp");
  go n <- dlist_bytes;
  go address <- dlift (bs_sub sp (VInt n));
  go _ <- dwrite (RName "sp") (NBits address);
  go _ <- dstore_loop py (py_range 15) address;
  dpc_next.

(** instructions.py:776-786 *)
Definition deval_Pop (py : pyver) : dcomp unit :=
  go address <- dread (RName "sp");
  go sp <- dread (RName "sp");
  go n <- dlist_bytes;
  go sp' <- dlift (bs_add sp (VInt n));
  go _ <- dwrite (RName "sp") (NBits sp');
  go address <- dload_loop py (py_range 15) address;
  dload_pc py address.

(** instructions.py:836-847 *)
Definition deval_LoadMultiple (py : pyver) : dcomp unit :=
  go n <- dattr a_n;
  go address <- drget n;
  go address <- dload_loop py (py_range 15) address;
  go _ <- dload_pc py address;
  go wback <- dattr a_wback;
  go w <- (if wback then
             go regs <- dattr a_registers;
             go n <- dattr a_n;
             go b <- dlift (bs_getitem regs (KInt n));
             dlift (eq_text b "0")
           else dret false);
  if w then
    go n <- dattr a_n;
    go v <- drget n;
    go k <- dlist_bytes;
    go v' <- dlift (bs_add v (VInt k));
    drset n v'
  else dret tt.

(** instructions.py:850-861 *)
Definition deval_StoreMultiple (py : pyver) : dcomp unit :=
  go n <- dattr a_n;
  go address <- drget n;
  go address <- dstore_loop py (py_range 15) address;
  go wback <- dattr a_wback;
  go _ <- (if wback then go n <- dattr a_n; drset n address else dret tt);
  dpc_next.

(** [cpu.write_register(CORE_REGISTER[name], v)] *)
Definition dwreg (name : string) (v : Z) : dcomp unit :=
  match dict_get String.eqb name CORE_REGISTER with
  | Some k => dwrite (RIndex k) (NInt v)
  | None => dfail KeyError
  end.
(** instructions.py:900-912 *)
Definition deval_ChangeProcessorState : dcomp unit :=
  go enable <- dattr a_enable;
  let v := if enable then 0 else 1 in
  go pri <- dattr a_affectPri;
  go _ <- (if pri then dwreg "primask" v else dret tt);
  go fault <- dattr a_affectFault;
  go _ <- (if fault then dwreg "faultmask" v else dret tt);
  dpc_next.

(** [cpu.read_register(CORE_REGISTER[name])] *)
Definition drreg (name : string) : dcomp bs :=
  match dict_get String.eqb name CORE_REGISTER with
  | Some k => dread (RIndex k)
  | None => dfail KeyError
  end.
(** [self.SYSm[a:b] == text] *)
Definition dsysm_is (a b : Z) (text : string) : dcomp bool :=
  go y <- dattr a_SYSm;
  go s <- dlift (bs_getitem y (KSlice (sl a b)));
  dlift (eq_text s text).
(** [self.SYSm[k] == text] *)
Definition dsysm_bit (k : Z) (text : string) : dcomp bool :=
  go y <- dattr a_SYSm;
  go s <- dlift (bs_getitem y (KInt k));
  dlift (eq_text s text).
Definition dset_slice (r : bs) (a b : Z) (v : pyval) : dcomp bs := dlift (bs_setitem r (KSlice (sl a b)) v).

(** instructions.py:934-942, xPSR access.  [cpu.apsr] is an ApsrAlias, which has
    no [__getitem__]: line 940 raises TypeError. *)
Definition dmrs_xpsr (r : bs) : dcomp bs :=
  go b0 <- dsysm_bit 0 "1";
  go r <- (if b0 then
             go ipsr <- dask (g_ipsr (Some d));
             go v <- dlift (bs_getitem ipsr (KSlice (sl 0 9)));
             dset_slice r 0 9 (VBits v)
           else dret r);
  go b1 <- dsysm_bit 1 "1";
  go r <- (if b1 then go r <- dset_slice r 24 27 (VStr "000"); dset_slice r 10 16 (VStr "000000") else dret r);
  go b2 <- dsysm_bit 2 "0";
  if b2 then dfail TypeError else dret r.

(** instructions.py:943-948, stack pointers *)
Definition dmrs_sp (r : bs) : dcomp bs :=
  go p <- dask (g_is_privileged (Some d));
  if p then
    go y0 <- dsysm_is 0 3 "000";
    if y0 then dread (RName "msp") else
    go y1 <- dsysm_is 0 3 "001";
    if y1 then dread (RName "psp") else dret r
  else dret r.

(** [r[0] = cpu.read_register(CORE_REGISTER[name])[0] if cpu.is_privileged else 0] *)
Definition dmrs_bit (r : bs) (name : string) : dcomp bs :=
  go p <- dask (g_is_privileged (Some d));
  go v <- (if p then go x <- drreg name; go b <- dlift (bs_getitem x (KInt 0)); dret (VBits b) else dret (VInt 0));
  dlift (bs_setitem r (KInt 0) v).

(** instructions.py:949-961, masks and CONTROL *)
Definition dmrs_mask (r : bs) : dcomp bs :=
  go y0 <- dsysm_is 0 3 "000";
  if y0 then dmrs_bit r "primask" else
  go y1 <- dsysm_is 0 3 "001";
  go y2 <- (if y1 then dret true else dsysm_is 0 3 "010");
  if y2 then
    go p <- dask (g_is_privileged (Some d));
    go v <- (if p then go x <- drreg "basepri"; go b <- dlift (bs_getitem x (KSlice (sl 0 8))); dret (VBits b)
             else dret (VInt 0));
    dset_slice r 0 8 v
  else
  go y3 <- dsysm_is 0 3 "011";
  if y3 then dmrs_bit r "faultmask" else
  go y4 <- dsysm_is 0 3 "100";
  if y4 then
    go ctl <- dread (RName "control");
    let k := if has_fp_ext then 3 else 2 in
    go b <- dlift (bs_getitem ctl (KSlice (sl 0 k)));
    dset_slice r 0 k (VBits b)
  else dret r.

(** instructions.py:932-963 *)
Definition deval_MoveFromSpecial : dcomp unit :=
  go r <- dlift (zeros 32);
  go g0 <- dsysm_is 3 8 "00000";
  go r <-
    (if g0 then dmrs_xpsr r else
     go g1 <- dsysm_is 3 8 "00001";
     if g1 then dmrs_sp r else
     go g2 <- dsysm_is 3 8 "00010";
     if g2 then dmrs_mask r else dret r);
  go d <- dattr a_d;
  go _ <- drset d r;
  dpc_next.

(** instructions.py:966-967 *)
Definition deval_MoveToSpecial : dcomp unit := dpc_next.

(** decoder.py:59-60: dispatch on the class *)
Definition deval (py : pyver) (k : klass) : dcomp unit :=
  match k with
  | Instruction => deval_Instruction
  | AddSub => deval_AddSub
  | BitOp => deval_BitOp
  | BitClear => deval_BitClear
  | ShiftOp => deval_ShiftOp
  | ReverseSubtract => deval_ReverseSubtract
  | Multiply => deval_Multiply
  | AddressToRegister => deval_AddressToRegister
  | Extend => deval_Extend
  | ByteReverse => deval_ByteReverse
  | Move => deval_Move
  | ShiftedMoveNegate => deval_ShiftedMoveNegate
  | Compare => deval_Compare
  | Test => deval_Test
  | Branch => deval_Branch
  | Load => deval_Load
  | Store => deval_Store
  | LoadLiteral => deval_LoadLiteral
  | Push => deval_Push py
  | Pop => deval_Pop py
  | LoadMultiple => deval_LoadMultiple py
  | StoreMultiple => deval_StoreMultiple py
  | ChangeProcessorState => deval_ChangeProcessorState
  | MoveFromSpecial => deval_MoveFromSpecial
  | MoveToSpecial => deval_MoveToSpecial
  end.

(** [i.execute(cpu)]: the delegate and the object afterwards, and the exception *)
Definition dexecute (py : pyver) (s : S) (i : insn) : dst * res unit := deval py (i_klass i) (mkdst s i).

(** model.py:131-133 on a list of distinct objects: the delegate and the objects
    afterwards; the first exception ends the loop *)
Fixpoint dcpu_execute (py : pyver) (s : S) (l : list insn) : (S * list insn) * res unit :=
  match l with
  | [] => ((s, []), Ok tt)
  | i :: l' =>
    match dexecute py s i with
    | (t, Ok _) => let '((s', l''), r) := dcpu_execute py (d_state t) l' in ((s', d_self t :: l''), r)
    | (t, Err e) => ((d_state t, d_self t :: l'), Err e)
    end
  end.
End Run.
Arguments dst : clear implicits.
Arguments dcomp : clear implicits.
