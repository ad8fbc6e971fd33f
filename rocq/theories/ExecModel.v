(** * Execution of instructions (instructions.py, decoder.py:56-60, model.py:131-133)

    [_eval] runs in a monad over the machine and the instruction object itself,
    because the in-place operators of bitstring change the object's attribute
    [imm32] (see [put_imm]), and because one class assigns an attribute while it
    runs.  What an instruction does before it raises stays done. *)
From Verif Require Export InsnModel.

Record st := mkst { s_cpu : cpu; s_self : insn }.
Definition comp (A : Type) := st -> st * res A.

Definition ret {A} (a : A) : comp A := fun s => (s, Ok a).
Definition fail {A} (e : exc) : comp A := fun s => (s, Err e).
Definition mbind {A B} (m : comp A) (f : A -> comp B) : comp B := fun s =>
  match m s with (s', Ok a) => f a s' | (s', Err e) => (s', Err e) end.
Notation "'do' x <- e ; k" := (mbind e (fun x => k))
  (at level 200, x name, e at level 100, k at level 200, right associativity).
Notation "'do' ' x <- e ; k" := (mbind e (fun x => k))
  (at level 200, x strict pattern, e at level 100, k at level 200, right associativity).

(** A computation that does not touch the state. *)
Definition lift {A} (r : res A) : comp A := fun s => (s, r).
(** Reading from, writing to the machine. *)
Definition getc {A} (f : cpu -> res A) : comp A := fun s => (s, f (s_cpu s)).
Definition setc (f : cpu -> res cpu) : comp unit := fun s =>
  match f (s_cpu s) with
  | Ok c => (mkst c (s_self s), Ok tt)
  | Err e => (s, Err e)
  end.
(** [self.x]; AttributeError if the attribute does not exist. *)
Definition attr {A} (f : attrs -> option A) : comp A := fun s =>
  (s, match f (i_attrs (s_self s)) with Some a => Ok a | None => Err AttributeError end).
(** [hasattr(self, 'x')] *)
Definition hasattr {A} (f : attrs -> option A) : comp bool := fun s =>
  (s, Ok (match f (i_attrs (s_self s)) with Some _ => true | None => false end)).
(** [self.x = v] *)
Definition setattr (f : attrs -> attrs) : comp unit := fun s =>
  (mkst (s_cpu s) (set_attrs f (s_self s)), Ok tt).
(** [self.size], decoder.py:40-42 *)
Definition size : comp Z := fun s => (s, Ok (i_size (s_self s))).

(** [cpu.r[k]], [cpu.r[k] = v] *)
Definition rget (k : Z) : comp bs := getc (fun c => r_get c k).
Definition rset (k : Z) (v : bs) : comp unit := setc (fun c => r_set c k (NBits v)).
(** [cpu.apsr.f], [cpu.apsr.f = v] *)
Definition fget (f : flag) : comp bs := getc (fun c => apsr_get c f).
Definition fset (f : flag) (v : bs) : comp unit := setc (fun c => apsr_set c f (VBits v)).
(** [cpu.pc += n] *)
Definition pc_add (n : Z) : comp unit :=
  do pc <- getc get_pc;
  do pc' <- lift (bs_add pc (VInt n));
  setc (fun c => Ok (set_pc c (NBits pc'))).
(** [cpu.pc += self.size] *)
Definition pc_next : comp unit := do n <- size; pc_add n.

(** The operand object was [self.imm32] itself ([shared]): what is done to the
    operand is done to the attribute. *)
Definition put_imm (shared : bool) (v : bs) : comp unit :=
  if shared then setattr (with_imm32 v) else ret tt.

(** instructions.py:41-55; [carry] and [overflow] may be None *)
Definition set_flags (result : bs) (carry overflow : option bs) : comp unit :=
  do sf <- attr a_setflags;
  let on := match sf with Always => true | Never => false | NotInITBlock => negb in_it_block end in
  if on then
    do n <- lift (bs_getitem result (KInt 31));
    do _ <- fset FN n;
    do z <- lift (bs_is_zero_bit result);
    do _ <- fset FZ z;
    do _ <- (match carry with Some b => fset FC b | None => ret tt end);
    match overflow with Some b => fset FV b | None => ret tt end
  else ret tt.

(** instructions.py:57-58 and decoder.py:56-57 *)
Definition eval_Instruction : comp unit := pc_next.

(** [self.imm32 if hasattr(self, 'imm32') else cpu.r[self.m]], and whether the
    object is the attribute *)
Definition imm_or_m : comp (bool * bs) :=
  do h <- hasattr a_imm32;
  if h then do v <- attr a_imm32; ret (true, v)
  else do m <- attr a_m; do v <- rget m; ret (false, v).

(** AddWithCarry on fresh [x] and an operand [y] that may be [self.imm32] *)
Definition add_shared (x : bs) (shared : bool) (y c : bs) : comp (bs * bs * bs) :=
  do ' ((_, y'), r) <- lift (AddWithCarry x y c);
  do _ <- put_imm shared y';
  ret r.

(** instructions.py:66-78 *)
Definition eval_AddSub : comp unit :=
  do sub <- attr a_sub;
  do ' (result, carry, overflow) <-
    (if sub then
       do n <- attr a_n;
       do x <- rget n;
       do ' (shared, y) <- imm_or_m;
       do y' <- lift (bs_invert y);
       do _ <- put_imm shared y';
       do uc <- attr a_use_carry;
       do c <- (if uc then fget FC else ret bit1);
       add_shared x shared y' c
     else
       do n <- attr a_n;
       do x <- rget n;
       do ' (shared, y) <- imm_or_m;
       do uc <- attr a_use_carry;
       do c <- (if uc then fget FC else ret bit0);
       add_shared x shared y c);
  do d <- attr a_d;
  do _ <- rset d result;
  do _ <- set_flags result (Some carry) (Some overflow);
  pc_next.

(** operator.and_, xor, or_ *)
Definition apply_op (op : bitop) (x y : bs) : res bs :=
  match op with
  | OpAnd => bs_and x (VBits y)
  | OpXor => bs_xor x (VBits y)
  | OpOr => bs_or x (VBits y)
  end.

(** instructions.py:81-85 *)
Definition eval_BitOp : comp unit :=
  do op <- attr a_op;
  do n <- attr a_n;
  do x <- rget n;
  do m <- attr a_m;
  do y <- rget m;
  do result <- lift (apply_op op x y);
  do d <- attr a_d;
  do _ <- rset d result;
  do _ <- set_flags result None None;
  pc_next.

(** instructions.py:88-92 *)
Definition eval_BitClear : comp unit :=
  do n <- attr a_n;
  do x <- rget n;
  do m <- attr a_m;
  do y <- rget m;
  do y' <- lift (bs_invert y);
  do result <- lift (bs_and x (VBits y'));
  do d <- attr a_d;
  do _ <- rset d result;
  do _ <- set_flags result None None;
  pc_next.

(** instructions.py:95-103 *)
Definition eval_ShiftOp : comp unit :=
  do h <- hasattr a_shift_n;
  do shift_n <- (if h then attr a_shift_n
                 else do m <- attr a_m; do y <- rget m;
                      do b <- lift (bs_getitem y (KSlice (sl 0 8))); ret (bs_unsigned b));
  do n <- attr a_n;
  do x <- rget n;
  do ty <- attr a_type;
  do c <- fget FC;
  do ' (result, carry) <- lift (Shift_C x ty shift_n c);
  do d <- attr a_d;
  do _ <- rset d result;
  do _ <- set_flags result (Some carry) None;
  pc_next.

(** instructions.py:203-207 *)
Definition eval_ReverseSubtract : comp unit :=
  do n <- attr a_n;
  do x <- rget n;
  do x' <- lift (bs_invert x);
  do y <- attr a_imm32;
  do ' (result, carry, overflow) <- add_shared x' true y bit1;
  do d <- attr a_d;
  do _ <- rset d result;
  do _ <- set_flags result (Some carry) (Some overflow);
  pc_next.

(** instructions.py:231-237 *)
Definition eval_Multiply : comp unit :=
  do n <- attr a_n;
  do x <- rget n;
  do ' (_, operand1) <- lift (bs_signed x);
  do m <- attr a_m;
  do y <- rget m;
  do ' (_, operand2) <- lift (bs_signed y);
  do result <- lift (bs_init (VInt (operand1 * operand2)) (Some 32));
  do d <- attr a_d;
  do _ <- rset d result;
  do _ <- set_flags result None None;
  pc_next.

(** instructions.py:260-263 *)
Definition eval_AddressToRegister : comp unit :=
  do add <- attr a_add;
  do pc <- getc pc_for_instr;
  do base <- lift (Align_bits pc 4);
  do imm <- attr a_imm32;
  do result <- lift (if add then bs_add base (VBits imm) else bs_sub base (VBits imm));
  do d <- attr a_d;
  do _ <- rset d result;
  pc_next.

(** instructions.py:282-289 *)
Definition eval_Extend : comp unit :=
  do m <- attr a_m;
  do x <- rget m;
  do rot <- attr a_rotation;
  do y <- lift (ROR x rot);
  do w <- attr a_width;
  do rotated <- lift (bs_getitem y (KSlice (sl 0 w)));
  do sgn <- attr a_signed;
  do result <- lift (if sgn then bs_sign_extend rotated 32 else bs_zero_extend rotated 32);
  do d <- attr a_d;
  do _ <- rset d result;
  pc_next.

(** One step [result[a:b] = Rm[c:d]]. *)
Definition move_slice (result src : bs) (a b c d : Z) : res bs :=
  let* v := bs_getitem src (KSlice (sl c d)) in bs_setitem result (KSlice (sl a b)) (VBits v).

(** instructions.py:316-333 *)
Definition eval_ByteReverse : comp unit :=
  do r0 <- lift (zeros 32);
  do m <- attr a_m;
  do x <- rget m;
  do w <- attr a_width;
  do result <-
    (if w =? 4 then
       lift (let* r := move_slice r0 x 24 32 0 8 in
             let* r := move_slice r x 16 24 8 16 in
             let* r := move_slice r x 8 16 16 24 in
             move_slice r x 0 8 24 32)
     else if w =? 2 then
       do sgn <- attr a_signed;
       if negb sgn then
         lift (let* r := move_slice r0 x 24 32 16 24 in
               let* r := move_slice r x 16 24 24 32 in
               let* r := move_slice r x 8 16 0 8 in
               move_slice r x 0 8 8 16)
       else
         lift (let* lo := bs_getitem x (KSlice (sl 0 8)) in
               let* ext := bs_sign_extend lo 24 in
               let* r := bs_setitem r0 (KSlice (sl 8 32)) (VBits ext) in
               move_slice r x 0 8 8 16)
     else ret r0);
  do d <- attr a_d;
  do _ <- rset d result;
  pc_next.

(** instructions.py:360-371 *)
Definition eval_Move : comp unit :=
  do h <- hasattr a_m;
  do ' (shared, result) <-
    (if h then
       do m <- attr a_m;
       do v <- rget m;
       do _ <- (if m =? 15 then setattr (with_setflags Never) else ret tt);
       ret (false, v)
     else do v <- attr a_imm32; ret (true, v));
  do neg <- attr a_negate;
  do result <- (if neg then do r <- lift (bs_invert result); do _ <- put_imm shared r; ret r else ret result);
  do d <- attr a_d;
  do _ <- rset d result;
  do c <- fget FC;
  do _ <- set_flags result (Some c) None;
  pc_next.

(** instructions.py:428-433: line 429 names an undefined variable *)
Definition eval_ShiftedMoveNegate : comp unit := fail NameError.

(** instructions.py:452-467 *)
Definition eval_Compare : comp unit :=
  do h <- hasattr a_m;
  do ' (shared, y) <-
    (if h then do m <- attr a_m; do v <- rget m; ret (false, v)
     else do v <- attr a_imm32; ret (true, v));
  do neg <- attr a_negate;
  do ' (y, carry_in) <-
    (if neg then do y' <- lift (bs_invert y); do _ <- put_imm shared y'; ret (y', bit1)
     else ret (y, bit0));
  do n <- attr a_n;
  do x <- rget n;
  do ' (result, carry, overflow) <- add_shared x shared y carry_in;
  do b <- lift (bs_getitem result (KInt 31));
  do _ <- fset FN b;
  do z <- lift (bs_is_zero_bit result);
  do _ <- fset FZ z;
  do _ <- fset FC carry;
  do _ <- fset FV overflow;
  pc_next.

(** instructions.py:501-507 *)
Definition eval_Test : comp unit :=
  do m <- attr a_m;
  do y <- rget m;
  do ty <- attr a_shift_t;
  do amount <- attr a_shift_n;
  do c <- fget FC;
  do ' (shifted, carry) <- lift (Shift_C y ty amount c);
  do n <- attr a_n;
  do x <- rget n;
  do result <- lift (bs_and x (VBits shifted));
  do b <- lift (bs_getitem result (KInt 31));
  do _ <- fset FN b;
  do z <- lift (bs_is_zero_bit result);
  do _ <- fset FZ z;
  do _ <- fset FC carry;
  pc_next.

(** [apsr.f == k], [apsr.n == apsr.v], [apsr.n != apsr.v] in the lambdas *)
Definition flag_is (c : cpu) (f : flag) (k : Z) : res bool :=
  let* b := apsr_get c f in let* '(_, r) := bs_eq b (VInt k) in Ok r.
Definition nv_equal (c : cpu) : res bool :=
  let* n := apsr_get c FN in let* v := apsr_get c FV in
  let* '(_, r) := bs_eq n (VBits v) in Ok r.
Definition nv_differ (c : cpu) : res bool :=
  let* n := apsr_get c FN in let* v := apsr_get c FV in
  let* '(_, r) := bs_ne n (VBits v) in Ok r.
Definition and_then (a b : res bool) : res bool := let* x := a in if x then b else Ok false.
Definition or_else (a b : res bool) : res bool := let* x := a in if x then Ok true else b.

(** instructions.py:532-549 [CONDITIONS[k].expr]; KeyError for other keys *)
Definition condition_expr (k : Z) (c : cpu) : res bool :=
  if k =? 0 then flag_is c FZ 1
  else if k =? 1 then flag_is c FZ 0
  else if k =? 2 then flag_is c FC 1
  else if k =? 3 then flag_is c FC 0
  else if k =? 4 then flag_is c FN 1
  else if k =? 5 then flag_is c FN 0
  else if k =? 6 then flag_is c FV 1
  else if k =? 7 then flag_is c FV 0
  else if k =? 8 then and_then (flag_is c FC 1) (flag_is c FZ 0)
  else if k =? 9 then or_else (flag_is c FC 0) (flag_is c FZ 1)
  else if k =? 10 then nv_equal c
  else if k =? 11 then nv_differ c
  else if k =? 12 then and_then (flag_is c FZ 0) (nv_equal c)
  else if k =? 13 then or_else (flag_is c FZ 1) (nv_differ c)
  else if k =? 14 then Ok true
  else if k =? 15 then Ok true
  else Err KeyError.

(** instructions.py:558-574; the key of CONDITIONS stands for [self.cond] *)
Definition eval_Branch : comp unit :=
  do k <- attr a_cond;
  do taken <- getc (condition_expr k);
  if taken then
    do pc <- getc pc_for_instr;
    do delta <- attr a_pc_delta;
    do next_instr <- lift (bs_add pc (VInt delta));
    do link <- attr a_with_link;
    do _ <- (if link then do l <- lift (bs_or next_instr (VInt 1)); setc (fun c => Ok (set_lr c (NBits l)))
             else ret tt);
    do h <- hasattr a_m;
    if h then
      do m <- attr a_m;
      do v <- rget m;
      do target <- lift (bs_init (VBits v) None);
      do target <- lift (bs_setitem target (KInt 0) (VInt 0));
      setc (fun c => Ok (set_pc c (NBits target)))
    else
      do imm <- attr a_imm32;
      do target <- lift (bs_add next_instr (VBits imm));
      setc (fun c => Ok (set_pc c (NBits target)))
  else pc_next.

(** instructions.py:620-625, 643-648: offset, offset address, address *)
Definition address_of : comp (bs * bs) :=
  do h <- hasattr a_imm32;
  do offset <- (if h then attr a_imm32
                else do m <- attr a_m; do y <- rget m; do ty <- attr a_shift_t; do amount <- attr a_shift_n;
                     do c <- fget FC; lift (Shift y ty amount c));
  do add <- attr a_add;
  do n <- attr a_n;
  do base <- rget n;
  do offset_addr <- lift (if add then bs_add base (VBits offset) else bs_sub base (VBits offset));
  do index <- attr a_index;
  do address <- (if index then ret offset_addr else do n <- attr a_n; rget n);
  ret (offset_addr, address).

(** instructions.py:619-634 *)
Definition eval_Load : comp unit :=
  do ' (offset_addr, address) <- address_of;
  do ms <- attr a_memsize;
  do data <- getc (fun c => read_memory c (NBits address) ms);
  do wback <- attr a_wback;
  do _ <- (if wback then do n <- attr a_n; rset n offset_addr else ret tt);
  do sgn <- attr a_signed;
  do data <- lift (if sgn then bs_sign_extend data 32 else bs_zero_extend data 32);
  do t <- attr a_t;
  do _ <- rset t data;
  pc_next.

(** instructions.py:642-650 *)
Definition eval_Store : comp unit :=
  do ' (_, address) <- address_of;
  do t <- attr a_t;
  do v <- rget t;
  do ms <- attr a_memsize;
  do data <- lift (bs_getitem v (KSlice (sl 0 ms)));
  do _ <- setc (fun c => write_memory c (NBits address) (NBits data) ms);
  pc_next.

(** instructions.py:718-727 *)
Definition eval_LoadLiteral : comp unit :=
  do pc <- getc pc_for_instr;
  do base <- lift (Align_bits pc 4);
  do add <- attr a_add;
  do imm <- attr a_imm32;
  do address <- lift (if add then bs_add base (VBits imm) else bs_sub base (VBits imm));
  do ms <- attr a_memsize;
  do data <- getc (fun c => read_memory c (NBits address) ms);
  do sgn <- attr a_signed;
  do data <- lift (if sgn then bs_sign_extend data 32 else bs_zero_extend data 32);
  do t <- attr a_t;
  do _ <- rset t data;
  pc_next.

(** [if self.registers[i]:] *)
Definition listed (py : pyver) (i : Z) : comp bool :=
  do regs <- attr a_registers;
  do b <- lift (bs_getitem regs (KInt i));
  ret (bs_truthy py b).
(** [4 * self.registers.bit_count()] *)
Definition list_bytes : comp Z :=
  do regs <- attr a_registers;
  do n <- lift (bs_bit_count regs);
  ret (4 * n).

(** instructions.py:769-772, 852-858: store loop; the address afterwards *)
Fixpoint store_loop (py : pyver) (l : list Z) (address : bs) : comp bs :=
  match l with
  | [] => ret address
  | i :: l' =>
    do b <- listed py i;
    if b then
      do v <- rget i;
      do _ <- setc (fun c => write32 c (NBits address) (NBits v));
      do address <- lift (bs_add address (VInt 4));
      store_loop py l' address
    else store_loop py l' address
  end.
(** instructions.py:779-782, 838-841: load loop; the address afterwards *)
Fixpoint load_loop (py : pyver) (l : list Z) (address : bs) : comp bs :=
  match l with
  | [] => ret address
  | i :: l' =>
    do b <- listed py i;
    if b then
      do v <- getc (fun c => read32 c (NBits address));
      do _ <- rset i v;
      do address <- lift (bs_add address (VInt 4));
      load_loop py l' address
    else load_loop py l' address
  end.
(** instructions.py:783-786, 842-845 *)
Definition load_pc (py : pyver) (address : bs) : comp unit :=
  do b <- listed py 15;
  if b then
    do v <- getc (fun c => read32 c (NBits address));
    setc (fun c => Ok (set_pc c (NBits v)))
  else pc_next.

(** instructions.py:766-773 *)
Definition eval_Push (py : pyver) : comp unit :=
  do sp <- getc get_sp;
  do n <- list_bytes;
  do address <- lift (bs_sub sp (VInt n));
  do _ <- setc (fun c => Ok (set_sp c (NBits address)));
  do _ <- store_loop py (py_range 15) address;
  pc_next.

(** instructions.py:776-786 *)
Definition eval_Pop (py : pyver) : comp unit :=
  do address <- getc get_sp;
  do sp <- getc get_sp;
  do n <- list_bytes;
  do sp' <- lift (bs_add sp (VInt n));
  do _ <- setc (fun c => Ok (set_sp c (NBits sp')));
  do address <- load_loop py (py_range 15) address;
  load_pc py address.

(** instructions.py:836-847 *)
Definition eval_LoadMultiple (py : pyver) : comp unit :=
  do n <- attr a_n;
  do address <- rget n;
  do address <- load_loop py (py_range 15) address;
  do _ <- load_pc py address;
  do wback <- attr a_wback;
  do w <- (if wback then
             do regs <- attr a_registers;
             do n <- attr a_n;
             do b <- lift (bs_getitem regs (KInt n));
             lift (eq_text b "0")
           else ret false);
  if w then
    do n <- attr a_n;
    do v <- rget n;
    do k <- list_bytes;
    do v' <- lift (bs_add v (VInt k));
    rset n v'
  else ret tt.

(** instructions.py:850-861 *)
Definition eval_StoreMultiple (py : pyver) : comp unit :=
  do n <- attr a_n;
  do address <- rget n;
  do address <- store_loop py (py_range 15) address;
  do wback <- attr a_wback;
  do _ <- (if wback then do n <- attr a_n; rset n address else ret tt);
  pc_next.

(** [cpu.write_register(CORE_REGISTER[name], v)] *)
Definition wreg (name : string) (v : Z) : comp unit :=
  match dict_get String.eqb name CORE_REGISTER with
  | Some k => setc (fun c => Ok (write_register c (RIndex k) (NInt v)))
  | None => fail KeyError
  end.
(** instructions.py:900-912 *)
Definition eval_ChangeProcessorState : comp unit :=
  do enable <- attr a_enable;
  let v := if enable then 0 else 1 in
  do pri <- attr a_affectPri;
  do _ <- (if pri then wreg "primask" v else ret tt);
  do fault <- attr a_affectFault;
  do _ <- (if fault then wreg "faultmask" v else ret tt);
  pc_next.

(** [cpu.read_register(CORE_REGISTER[name])] *)
Definition rreg (name : string) : comp bs :=
  match dict_get String.eqb name CORE_REGISTER with
  | Some k => getc (fun c => read_register c (RIndex k))
  | None => fail KeyError
  end.
(** [self.SYSm[a:b] == text] *)
Definition sysm_is (a b : Z) (text : string) : comp bool :=
  do y <- attr a_SYSm;
  do s <- lift (bs_getitem y (KSlice (sl a b)));
  lift (eq_text s text).
(** [self.SYSm[k] == text] *)
Definition sysm_bit (k : Z) (text : string) : comp bool :=
  do y <- attr a_SYSm;
  do s <- lift (bs_getitem y (KInt k));
  lift (eq_text s text).
Definition set_slice (r : bs) (a b : Z) (v : pyval) : comp bs := lift (bs_setitem r (KSlice (sl a b)) v).

(** instructions.py:934-942, xPSR access.  [cpu.apsr] is an ApsrAlias, which has
    no [__getitem__]: line 940 raises TypeError. *)
Definition mrs_xpsr (r : bs) : comp bs :=
  do b0 <- sysm_bit 0 "1";
  do r <- (if b0 then
             do ipsr <- getc get_ipsr;
             do v <- lift (bs_getitem ipsr (KSlice (sl 0 9)));
             set_slice r 0 9 (VBits v)
           else ret r);
  do b1 <- sysm_bit 1 "1";
  do r <- (if b1 then do r <- set_slice r 24 27 (VStr "000"); set_slice r 10 16 (VStr "000000") else ret r);
  do b2 <- sysm_bit 2 "0";
  if b2 then fail TypeError else ret r.

(** instructions.py:943-948, stack pointers *)
Definition mrs_sp (r : bs) : comp bs :=
  do p <- getc is_privileged;
  if p then
    do y0 <- sysm_is 0 3 "000";
    if y0 then getc get_msp else
    do y1 <- sysm_is 0 3 "001";
    if y1 then getc get_psp else ret r
  else ret r.

(** [r[0] = cpu.read_register(CORE_REGISTER[name])[0] if cpu.is_privileged else 0] *)
Definition mrs_bit (r : bs) (name : string) : comp bs :=
  do p <- getc is_privileged;
  do v <- (if p then do x <- rreg name; do b <- lift (bs_getitem x (KInt 0)); ret (VBits b) else ret (VInt 0));
  lift (bs_setitem r (KInt 0) v).

(** instructions.py:949-961, masks and CONTROL *)
Definition mrs_mask (r : bs) : comp bs :=
  do y0 <- sysm_is 0 3 "000";
  if y0 then mrs_bit r "primask" else
  do y1 <- sysm_is 0 3 "001";
  do y2 <- (if y1 then ret true else sysm_is 0 3 "010");
  if y2 then
    do p <- getc is_privileged;
    do v <- (if p then do x <- rreg "basepri"; do b <- lift (bs_getitem x (KSlice (sl 0 8))); ret (VBits b)
             else ret (VInt 0));
    set_slice r 0 8 v
  else
  do y3 <- sysm_is 0 3 "011";
  if y3 then mrs_bit r "faultmask" else
  do y4 <- sysm_is 0 3 "100";
  if y4 then
    do ctl <- getc get_control;
    let k := if has_fp_ext then 3 else 2 in
    do b <- lift (bs_getitem ctl (KSlice (sl 0 k)));
    set_slice r 0 k (VBits b)
  else ret r.

(** instructions.py:932-963 *)
Definition eval_MoveFromSpecial : comp unit :=
  do r <- lift (zeros 32);
  do g0 <- sysm_is 3 8 "00000";
  do r <-
    (if g0 then mrs_xpsr r else
     do g1 <- sysm_is 3 8 "00001";
     if g1 then mrs_sp r else
     do g2 <- sysm_is 3 8 "00010";
     if g2 then mrs_mask r else ret r);
  do d <- attr a_d;
  do _ <- rset d r;
  pc_next.

(** instructions.py:966-967 *)
Definition eval_MoveToSpecial : comp unit := pc_next.

(** decoder.py:59-60: dispatch on the class *)
Definition eval (py : pyver) (k : klass) : comp unit :=
  match k with
  | Instruction => eval_Instruction
  | AddSub => eval_AddSub
  | BitOp => eval_BitOp
  | BitClear => eval_BitClear
  | ShiftOp => eval_ShiftOp
  | ReverseSubtract => eval_ReverseSubtract
  | Multiply => eval_Multiply
  | AddressToRegister => eval_AddressToRegister
  | Extend => eval_Extend
  | ByteReverse => eval_ByteReverse
  | Move => eval_Move
  | ShiftedMoveNegate => eval_ShiftedMoveNegate
  | Compare => eval_Compare
  | Test => eval_Test
  | Branch => eval_Branch
  | Load => eval_Load
  | Store => eval_Store
  | LoadLiteral => eval_LoadLiteral
  | Push => eval_Push py
  | Pop => eval_Pop py
  | LoadMultiple => eval_LoadMultiple py
  | StoreMultiple => eval_StoreMultiple py
  | ChangeProcessorState => eval_ChangeProcessorState
  | MoveFromSpecial => eval_MoveFromSpecial
  | MoveToSpecial => eval_MoveToSpecial
  end.

(** [i.execute(cpu)]: the machine and the object afterwards, and the exception *)
Definition execute (py : pyver) (c : cpu) (i : insn) : st * res unit := eval py (i_klass i) (mkst c i).

(** model.py:131-133 on a list of distinct objects: the machine and the objects
    afterwards; the first exception ends the loop *)
Fixpoint cpu_execute (py : pyver) (c : cpu) (l : list insn) : (cpu * list insn) * res unit :=
  match l with
  | [] => ((c, []), Ok tt)
  | i :: l' =>
    match execute py c i with
    | (s, Ok _) => let '((c', l''), r) := cpu_execute py (s_cpu s) l' in ((c', s_self s :: l''), r)
    | (s, Err e) => ((s_cpu s, s_self s :: l'), Err e)
    end
  end.
