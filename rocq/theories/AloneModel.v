(** * Instructions executed on a [CpuModel] without delegate (instructions.py, decoder.py:56-60, model.py:131-133)

    A new [CpuModel] has no delegate (model.py:110): every register and every memory access then
    reads as None and every write does nothing ([DelegateModel.v] with no delegate).  The only state
    is the instruction object.  Where Python needs a value and None is there it raises, and what
    follows in the method is never reached: the definitions below end there. *)
From Verif Require Export ExecModel DelegateModel.

Definition acomp (A : Type) := insn -> insn * res A.
Definition aret {A} (a : A) : acomp A := fun i => (i, Ok a).
Definition afail {A} (e : exc) : acomp A := fun i => (i, Err e).
Definition abind {A B} (m : acomp A) (f : A -> acomp B) : acomp B := fun i =>
  match m i with (i', Ok a) => f a i' | (i', Err e) => (i', Err e) end.
Notation "'alone' x <- e ; k" := (abind e (fun x => k))
  (at level 200, x name, e at level 100, k at level 200, right associativity).

(** A computation that does not touch the object. *)
Definition alift {A} (r : res A) : acomp A := fun i => (i, r).
(** [self.x]; AttributeError if the attribute does not exist. *)
Definition aattr {A} (f : attrs -> option A) : acomp A := fun i =>
  (i, match f (i_attrs i) with Some a => Ok a | None => Err AttributeError end).
(** [hasattr(self, 'x')] *)
Definition ahasattr {A} (f : attrs -> option A) : acomp bool := fun i =>
  (i, Ok (match f (i_attrs i) with Some _ => true | None => false end)).
(** [self.x = v] *)
Definition asetattr (f : attrs -> attrs) : acomp unit := fun i => (set_attrs f i, Ok tt).

(** The CPU model: no delegate, whose state would be [tt] *)
Definition nothing : option (@delegate unit) := None.
(** [cpu.r[k]]: None, or KeyError *)
Definition arget (k : Z) : acomp (option bs) := alift (snd (g_ri_get nothing 0 15 k tt)).
(** [cpu.r[k] = v]: [v] is a bitstring, or None, which the setter passes on like an int *)
Definition arset (k : Z) : acomp unit := alift (snd (g_ri_set nothing 0 15 k (NInt 0) tt)).
(** [cpu.apsr.f]: TypeError *)
Definition afget (f : flag) : acomp bs := alift (snd (g_apsr_get nothing f tt)).
(** [cpu.pc_for_instr]: TypeError *)
Definition apc_for_instr : acomp bs := alift (snd (g_pc_for_instr nothing tt)).
(** [cpu.is_privileged], [cpu.ipsr]: TypeError *)
Definition ais_privileged : acomp bool := alift (snd (g_is_privileged nothing tt)).
Definition aipsr : acomp bs := alift (snd (g_ipsr nothing tt)).
(** A use of a value in an operation that raises [e] if it is None *)
Definition ause {A} (o : option bs) (e : exc) (f : bs -> res A) : acomp A :=
  match o with Some b => alift (f b) | None => afail e end.
(** [cpu.pc += self.size] *)
Definition apc_next : acomp unit :=
  alone pc <- alift (snd (g_read_register nothing (RName "pc") tt));
  ause pc TypeError (fun _ => Ok tt).

(** instructions.py:57-58 and decoder.py:56-57 *)
Definition aeval_Instruction : acomp unit := apc_next.

(** [self.imm32 if hasattr(self, 'imm32') else cpu.r[self.m]]: [None] is Python's None *)
Definition aimm_or_m : acomp (option bs) :=
  alone h <- ahasattr a_imm32;
  if h then alone v <- aattr a_imm32; aret (Some v)
  else alone m <- aattr a_m; arget m.
(** [~x]: if [x] is the attribute imm32 the attribute changes too *)
Definition ainvert (x : option bs) : acomp unit :=
  alone y <- ause x TypeError bs_invert;
  asetattr (with_imm32 y).

(** instructions.py:66-78: AddWithCarry asks None for its width *)
Definition aeval_AddSub : acomp unit :=
  alone sub <- aattr a_sub;
  alone n <- aattr a_n;
  alone x <- arget n;
  alone y <- aimm_or_m;
  alone _ <- (if sub then ainvert y else aret tt);
  alone uc <- aattr a_use_carry;
  alone _ <- (if uc then alone _ <- afget FC; aret tt else aret tt);
  ause x AttributeError (fun _ => Ok tt).

(** instructions.py:81-85: the operator on None and None *)
Definition aeval_BitOp : acomp unit :=
  alone _ <- aattr a_op;
  alone n <- aattr a_n;
  alone x <- arget n;
  alone m <- aattr a_m;
  alone _ <- arget m;
  ause x TypeError (fun _ => Ok tt).

(** instructions.py:88-92: [~None] *)
Definition aeval_BitClear : acomp unit :=
  alone n <- aattr a_n;
  alone _ <- arget n;
  alone m <- aattr a_m;
  alone y <- arget m;
  ause y TypeError (fun _ => Ok tt).

(** instructions.py:95-103: [None[0:8]], or the carry *)
Definition aeval_ShiftOp : acomp unit :=
  alone h <- ahasattr a_shift_n;
  alone _ <- (if h then aattr a_shift_n
              else alone m <- aattr a_m; alone y <- arget m; ause y TypeError (fun _ => Ok 0));
  alone n <- aattr a_n;
  alone _ <- arget n;
  alone _ <- aattr a_type;
  alone _ <- afget FC;
  aret tt.

(** instructions.py:203-207: [~None] *)
Definition aeval_ReverseSubtract : acomp unit :=
  alone n <- aattr a_n;
  alone x <- arget n;
  ause x TypeError (fun _ => Ok tt).

(** instructions.py:231-237: [None.signed] *)
Definition aeval_Multiply : acomp unit :=
  alone n <- aattr a_n;
  alone x <- arget n;
  ause x AttributeError (fun _ => Ok tt).

(** instructions.py:260-263 *)
Definition aeval_AddressToRegister : acomp unit :=
  alone _ <- aattr a_add;
  alone _ <- apc_for_instr;
  aret tt.

(** instructions.py:282-289: rotated by 0 None stays None and is sliced, otherwise it is asked for
    its width *)
Definition aeval_Extend : acomp unit :=
  alone m <- aattr a_m;
  alone x <- arget m;
  alone rot <- aattr a_rotation;
  if rot =? 0 then
    alone _ <- aattr a_width;
    ause x TypeError (fun _ => Ok tt)
  else ause x AttributeError (fun _ => Ok tt).

(** instructions.py:316-333: [None[a:b]]; with another width nothing is reversed *)
Definition aeval_ByteReverse : acomp unit :=
  alone m <- aattr a_m;
  alone x <- arget m;
  alone w <- aattr a_width;
  alone _ <- (if w =? 4 then ause x TypeError (fun _ => Ok tt)
              else if w =? 2 then alone _ <- aattr a_signed; ause x TypeError (fun _ => Ok tt)
              else aret tt);
  alone d <- aattr a_d;
  alone _ <- arset d;
  apc_next.

(** instructions.py:360-371 *)
Definition aeval_Move : acomp unit :=
  alone h <- ahasattr a_m;
  alone result <-
    (if h then
       alone m <- aattr a_m;
       alone v <- arget m;
       alone _ <- (if m =? 15 then asetattr (with_setflags Never) else aret tt);
       aret v
     else alone v <- aattr a_imm32; aret (Some v));
  alone neg <- aattr a_negate;
  alone _ <- (if neg then ainvert result else aret tt);
  alone d <- aattr a_d;
  alone _ <- arset d;
  alone _ <- afget FC;
  aret tt.

(** instructions.py:428-433: line 429 names an undefined variable *)
Definition aeval_ShiftedMoveNegate : acomp unit := afail NameError.

(** instructions.py:452-467: AddWithCarry asks None for its width *)
Definition aeval_Compare : acomp unit :=
  alone h <- ahasattr a_m;
  alone y <-
    (if h then alone m <- aattr a_m; arget m
     else alone v <- aattr a_imm32; aret (Some v));
  alone neg <- aattr a_negate;
  alone _ <- (if neg then ainvert y else aret tt);
  alone n <- aattr a_n;
  alone x <- arget n;
  ause x AttributeError (fun _ => Ok tt).

(** instructions.py:501-507 *)
Definition aeval_Test : acomp unit :=
  alone m <- aattr a_m;
  alone _ <- arget m;
  alone _ <- aattr a_shift_t;
  alone _ <- aattr a_shift_n;
  alone _ <- afget FC;
  aret tt.

(** instructions.py:532-549, 558-574: the conditions of the keys 0 to 13 read a flag, the other two
    are taken *)
Definition aeval_Branch : acomp unit :=
  alone k <- aattr a_cond;
  if (0 <=? k) && (k <=? 13) then alone _ <- afget FZ; aret tt
  else if (k =? 14) || (k =? 15) then alone _ <- apc_for_instr; aret tt
  else afail KeyError.

(** instructions.py:620-625, 643-648: [None + offset] is [offset.__radd__(None)], [None - offset]
    is [offset.__rsub__(None)] *)
Definition aaddress_of : acomp unit :=
  alone h <- ahasattr a_imm32;
  alone offset <- (if h then aattr a_imm32
                   else alone m <- aattr a_m; alone _ <- arget m; alone _ <- aattr a_shift_t; alone _ <- aattr a_shift_n;
                        afget FC);
  alone add <- aattr a_add;
  alone n <- aattr a_n;
  alone _ <- arget n;
  alone _ <- alift (if add then bs_radd offset VNone else bs_rsub offset VNone);
  alone index <- aattr a_index;
  if index then aret tt else alone n <- aattr a_n; alone _ <- arget n; aret tt.

(** instructions.py:619-634: the memory reads as None, which has no [sign_extend] *)
Definition aeval_Load : acomp unit :=
  alone _ <- aaddress_of;
  alone ms <- aattr a_memsize;
  alone data <- alift (snd (g_read_memory nothing (NInt 0) ms tt));
  alone wback <- aattr a_wback;
  alone _ <- (if wback then alone n <- aattr a_n; arset n else aret tt);
  alone _ <- aattr a_signed;
  ause data AttributeError (fun _ => Ok tt).

(** instructions.py:642-650: [None[0:n]] *)
Definition aeval_Store : acomp unit :=
  alone _ <- aaddress_of;
  alone t <- aattr a_t;
  alone v <- arget t;
  alone _ <- aattr a_memsize;
  ause v TypeError (fun _ => Ok tt).

(** instructions.py:718-727 *)
Definition aeval_LoadLiteral : acomp unit := alone _ <- apc_for_instr; aret tt.

(** [if self.registers[i]:] *)
Definition alisted (py : pyver) (i : Z) : acomp bool :=
  alone regs <- aattr a_registers;
  alone b <- alift (bs_getitem regs (KInt i));
  aret (bs_truthy py b).
(** [4 * self.registers.bit_count()] *)
Definition alist_bytes : acomp Z :=
  alone regs <- aattr a_registers;
  alone n <- alift (bs_bit_count regs);
  aret (4 * n).

(** instructions.py:838-841, 852-858: a listed register is transferred, then [None + 4] *)
Fixpoint aloop (py : pyver) (l : list Z) (address : option bs) : acomp unit :=
  match l with
  | [] => aret tt
  | i :: l' =>
    alone b <- alisted py i;
    if b then alone _ <- arset i; ause address TypeError (fun _ => Ok tt)
    else aloop py l' address
  end.

(** instructions.py:766-773, 776-786: [None - n], [None + n] *)
Definition aeval_Push : acomp unit :=
  alone sp <- alift (snd (g_read_register nothing (RName "sp") tt));
  alone _ <- alist_bytes;
  ause sp TypeError (fun _ => Ok tt).
Definition aeval_Pop : acomp unit :=
  alone sp <- alift (snd (g_read_register nothing (RName "sp") tt));
  alone _ <- alist_bytes;
  ause sp TypeError (fun _ => Ok tt).

(** instructions.py:836-847 *)
Definition aeval_LoadMultiple (py : pyver) : acomp unit :=
  alone n <- aattr a_n;
  alone address <- arget n;
  alone _ <- aloop py (py_range 15) address;
  alone b <- alisted py 15;
  alone _ <- (if b then alift (snd (g_write_register nothing (RName "pc") (NInt 0) tt)) else apc_next);
  alone wback <- aattr a_wback;
  alone w <- (if wback then
                alone regs <- aattr a_registers;
                alone n <- aattr a_n;
                alone b <- alift (bs_getitem regs (KInt n));
                alift (eq_text b "0")
              else aret false);
  if w then
    alone n <- aattr a_n;
    alone v <- arget n;
    alone _ <- alist_bytes;
    ause v TypeError (fun _ => Ok tt)
  else aret tt.

(** instructions.py:850-861 *)
Definition aeval_StoreMultiple (py : pyver) : acomp unit :=
  alone n <- aattr a_n;
  alone address <- arget n;
  alone _ <- aloop py (py_range 15) address;
  alone wback <- aattr a_wback;
  alone _ <- (if wback then alone n <- aattr a_n; arset n else aret tt);
  apc_next.

(** instructions.py:900-912: the masks are written to nowhere *)
Definition aeval_ChangeProcessorState : acomp unit :=
  alone _ <- aattr a_enable;
  alone _ <- aattr a_affectPri;
  alone _ <- aattr a_affectFault;
  apc_next.

(** [self.SYSm[a:b] == text] *)
Definition asysm_is (a b : Z) (text : string) : acomp bool :=
  alone y <- aattr a_SYSm;
  alone s <- alift (bs_getitem y (KSlice (sl a b)));
  alift (eq_text s text).
(** [self.SYSm[k] == text] *)
Definition asysm_bit (k : Z) (text : string) : acomp bool :=
  alone y <- aattr a_SYSm;
  alone s <- alift (bs_getitem y (KInt k));
  alift (eq_text s text).

(** instructions.py:934-942; [cpu.apsr] cannot be sliced *)
Definition amrs_xpsr : acomp unit :=
  alone b0 <- asysm_bit 0 "1";
  alone _ <- (if b0 then alone _ <- aipsr; aret tt else aret tt);
  alone _ <- asysm_bit 1 "1";
  alone b2 <- asysm_bit 2 "0";
  if b2 then afail TypeError else aret tt.
(** instructions.py:949-961 *)
Definition amrs_mask : acomp unit :=
  alone y0 <- asysm_is 0 3 "000";
  if y0 then alone _ <- ais_privileged; aret tt else
  alone y1 <- asysm_is 0 3 "001";
  alone y2 <- (if y1 then aret true else asysm_is 0 3 "010");
  if y2 then alone _ <- ais_privileged; aret tt else
  alone y3 <- asysm_is 0 3 "011";
  if y3 then alone _ <- ais_privileged; aret tt else
  alone y4 <- asysm_is 0 3 "100";
  if y4 then
    alone ctl <- alift (snd (g_read_register nothing (RName "control") tt));
    ause ctl TypeError (fun _ => Ok tt)
  else aret tt.

(** instructions.py:932-963 *)
Definition aeval_MoveFromSpecial : acomp unit :=
  alone g0 <- asysm_is 3 8 "00000";
  alone _ <-
    (if g0 then amrs_xpsr else
     alone g1 <- asysm_is 3 8 "00001";
     if g1 then alone _ <- ais_privileged; aret tt else
     alone g2 <- asysm_is 3 8 "00010";
     if g2 then amrs_mask else aret tt);
  alone d <- aattr a_d;
  alone _ <- arset d;
  apc_next.

(** instructions.py:966-967 *)
Definition aeval_MoveToSpecial : acomp unit := apc_next.

(** decoder.py:59-60: dispatch on the class *)
Definition aeval (py : pyver) (k : klass) : acomp unit :=
  match k with
  | Instruction => aeval_Instruction
  | AddSub => aeval_AddSub
  | BitOp => aeval_BitOp
  | BitClear => aeval_BitClear
  | ShiftOp => aeval_ShiftOp
  | ReverseSubtract => aeval_ReverseSubtract
  | Multiply => aeval_Multiply
  | AddressToRegister => aeval_AddressToRegister
  | Extend => aeval_Extend
  | ByteReverse => aeval_ByteReverse
  | Move => aeval_Move
  | ShiftedMoveNegate => aeval_ShiftedMoveNegate
  | Compare => aeval_Compare
  | Test => aeval_Test
  | Branch => aeval_Branch
  | Load => aeval_Load
  | Store => aeval_Store
  | LoadLiteral => aeval_LoadLiteral
  | Push => aeval_Push
  | Pop => aeval_Pop
  | LoadMultiple => aeval_LoadMultiple py
  | StoreMultiple => aeval_StoreMultiple py
  | ChangeProcessorState => aeval_ChangeProcessorState
  | MoveFromSpecial => aeval_MoveFromSpecial
  | MoveToSpecial => aeval_MoveToSpecial
  end.

(** decoder.py:59-60 [Instruction.execute]: the object afterwards and whether it raises *)
Definition aexecute (py : pyver) (i : insn) : insn * res unit := aeval py (i_klass i) i.

(** model.py:131-133 [CpuModel.execute] over a list of objects, each its own *)
Fixpoint acpu_execute (py : pyver) (l : list insn) : list insn * res unit :=
  match l with
  | [] => ([], Ok tt)
  | i :: l' =>
    match aexecute py i with
    | (i', Ok _) => let '(l'', r) := acpu_execute py l' in (i' :: l'', r)
    | (i', Err e) => (i' :: l', Err e)
    end
  end.
