(** * The instruction encodings, as a table

    One row per encoding in the notation of the architecture manual: a text of 16
    or 32 characters, most significant bit first and first halfword first, where 0
    and 1 are fixed bits and a letter marks the bits of a field; the bits of one
    letter, from left to right, form the value of that field.  A row says what the
    encoding must decode to as a function of its field values.  The first row that
    matches a word and is not marked as referring to another encoding counts.

    Register numbers for which the manual only says UNPREDICTABLE, and for which the
    code has no check, are decoded like any other. *)
From Verif Require Import InsnModel SpecBits SpecArm.
Local Open Scope string_scope.
Local Open Scope list_scope.
Local Open Scope Z_scope.
Local Open Scope bool_scope.

(** ** Attribute lists *)
Inductive item :=
| D (v : Z) | N (v : Z) | M (v : Z) | T (v : Z) | Imm (v : Z) | Flags (v : setflags) | Carry (v : bool)
| Sub (v : bool) | Neg (v : bool) | Op (v : bitop) | Ty (v : srtype) | ShT (v : srtype) | ShN (v : Z)
| Rot (v : Z) | Wid (v : Z) | Sgn (v : bool) | Link (v : bool) | Cond (v : Z) | Delta (v : Z) | Mem (v : Z)
| Idx (v : bool) | Add (v : bool) | Wb (v : bool) | Regs (v : Z) | En (v : bool) | Pri (v : bool)
| Flt (v : bool) | Sys (v : Z).

Fixpoint pick {A} (f : item -> option A) (l : list item) : option A :=
  match l with [] => None | x :: l' => match f x with Some v => Some v | None => pick f l' end end.

(** The attributes of an instruction object: exactly those listed.  [Imm] is a
    32-bit, [Regs] a 16-bit and [Sys] an 8-bit object. *)
Definition attributes (l : list item) : attrs := {|
  a_d := pick (fun x => match x with D v => Some v | _ => None end) l;
  a_n := pick (fun x => match x with N v => Some v | _ => None end) l;
  a_m := pick (fun x => match x with M v => Some v | _ => None end) l;
  a_t := pick (fun x => match x with T v => Some v | _ => None end) l;
  a_imm32 := pick (fun x => match x with Imm v => Some (bits 32 v) | _ => None end) l;
  a_setflags := pick (fun x => match x with Flags v => Some v | _ => None end) l;
  a_use_carry := pick (fun x => match x with Carry v => Some v | _ => None end) l;
  a_sub := pick (fun x => match x with Sub v => Some v | _ => None end) l;
  a_negate := pick (fun x => match x with Neg v => Some v | _ => None end) l;
  a_op := pick (fun x => match x with Op v => Some v | _ => None end) l;
  a_type := pick (fun x => match x with Ty v => Some v | _ => None end) l;
  a_shift_t := pick (fun x => match x with ShT v => Some v | _ => None end) l;
  a_shift_n := pick (fun x => match x with ShN v => Some v | _ => None end) l;
  a_rotation := pick (fun x => match x with Rot v => Some v | _ => None end) l;
  a_width := pick (fun x => match x with Wid v => Some v | _ => None end) l;
  a_signed := pick (fun x => match x with Sgn v => Some v | _ => None end) l;
  a_with_link := pick (fun x => match x with Link v => Some v | _ => None end) l;
  a_cond := pick (fun x => match x with Cond v => Some v | _ => None end) l;
  a_pc_delta := pick (fun x => match x with Delta v => Some v | _ => None end) l;
  a_memsize := pick (fun x => match x with Mem v => Some v | _ => None end) l;
  a_index := pick (fun x => match x with Idx v => Some v | _ => None end) l;
  a_add := pick (fun x => match x with Add v => Some v | _ => None end) l;
  a_wback := pick (fun x => match x with Wb v => Some v | _ => None end) l;
  a_registers := pick (fun x => match x with Regs v => Some (bits 16 v) | _ => None end) l;
  a_enable := pick (fun x => match x with En v => Some v | _ => None end) l;
  a_affectPri := pick (fun x => match x with Pri v => Some v | _ => None end) l;
  a_affectFault := pick (fun x => match x with Flt v => Some v | _ => None end) l;
  a_SYSm := pick (fun x => match x with Sys v => Some (bits 8 v) | _ => None end) l |}.

(** ** Outcomes *)
Inductive outcome :=
| Gives (mnemonic : string) (k : klass) (attributes : list item) (operands : list operand)
| Unpredictable
| Other                      (* another row decodes this word *)
| Raises (e : exc).          (* only in what the code is observed to do *)

(** Operand shorthands: register, immediate, immediate not shown when zero, register list. *)
Definition R (n : Z) : operand := RegOp n false.
Definition V (v : Z) : operand := ImmOp v false.
Definition V0 (v : Z) : operand := ImmOp v true.
Definition RL (v : Z) : operand := ReglistOp (bits 16 v).

(** SP and PC, not allowed in many 32-bit encodings. *)
Definition bad (r : Z) : bool := (r =? 13) || (r =? 15).
(** PC bit, LR bit and the low registers. *)
Definition reglist (p l r : Z) : Z := 32768 * p + 16384 * l + r.
(** The 25-bit offset of BL: S:I1:I2:imm10:imm11:0 with Ix = NOT(Jx EOR S). *)
Definition bl_offset (s j1 j2 imm10 imm11 : Z) : Z :=
  let i1 := if j1 =? s then 1 else 0 in
  let i2 := if j2 =? s then 1 else 0 in
  16777216 * s + 8388608 * i1 + 4194304 * i2 + 4096 * imm10 + 2 * imm11.
(** Names of the conditions. *)
Definition condition (c : Z) : string :=
  nth (Z.to_nat c) ["eq"; "ne"; "cs"; "cc"; "mi"; "pl"; "vs"; "vc"; "hi"; "ls"; "ge"; "lt"; "gt"; "le"] "".
(** The special registers: APSR, IAPSR, EAPSR, XPSR, IPSR, EPSR, IEPSR, MSP, PSP, PRIMASK,
    BASEPRI, BASEPRI_MAX, FAULTMASK, CONTROL. *)
Definition special (y : Z) : bool :=
  (0 <=? y) && (y <=? 3) || (5 <=? y) && (y <=? 9) || (16 <=? y) && (y <=? 20).
(** What reading [signed] leaves in a negative object. *)
Definition flipped (off : Z) : Z := if off <? 0 then -1 - off else off.

(** ** Rows *)
Record isa_row := mkrow {
  r_text : string;
  r_doc : (string -> Z) -> outcome;                       (* as documented *)
  r_dev : option (pyver -> (string -> Z) -> outcome) }.   (* what the code does, where it deviates *)
Definition row text doc := mkrow text doc None.
Definition row_dev text doc dev := mkrow text doc (Some dev).

(** Bit of the word shown at place [j] of a text: the first halfword is the low half. *)
Definition place (j : Z) : Z := if j <? 16 then 15 - j else 47 - j.
Definition placed (text : string) : list (Z * ascii) :=
  let l := chars text in combine (map place (py_range (Z.of_nat (List.length l)))) l.
Definition fits (text : string) (w : Z) : bool :=
  forallb (fun '(p, c) =>
    match c with
    | "0"%char => negb (Z.testbit w p)
    | "1"%char => Z.testbit w p
    | _ => true
    end) (placed text).
Definition field (text : string) (w : Z) (letter : string) : Z :=
  fold_left (fun acc '(p, c) =>
    if String.eqb (String c "") letter then 2 * acc + (if Z.testbit w p then 1 else 0) else acc) (placed text) 0.

(** The row that counts for a word. *)
Definition is_other (o : outcome) : bool := match o with Other => true | _ => false end.
Fixpoint row_for (table : list isa_row) (w : Z) : option isa_row :=
  match table with
  | [] => None
  | r :: table' =>
    if fits (r_text r) w && negb (is_other (r_doc r (field (r_text r) w))) then Some r else row_for table' w
  end.

Definition documented (r : isa_row) (w : Z) : outcome := r_doc r (field (r_text r) w).
Definition observed (py : pyver) (r : isa_row) (w : Z) : outcome :=
  match r_dev r with Some f => f py (field (r_text r) w) | None => documented r w end.

(** An outcome as the result of a decode. *)
Definition decoded (is32 : bool) (w a : Z) (o : outcome) : res insn :=
  match o with
  | Gives m k l ops => Ok (mkinsn m w is32 a k ops (attributes l))
  | Unpredictable => Err UnpredictableError
  | Other => Err DecodeError
  | Raises e => Err e
  end.

(** ** The table, more fixed bits first *)
Definition isa16 : list isa_row := [
  row "1011111101000000" (fun f =>
    Gives "sev" Instruction [] []);
  row "1011111100110000" (fun f =>
    Gives "wfi" Instruction [] []);
  row "1011111100100000" (fun f =>
    Gives "wfe" Instruction [] []);
  row "1011111100010000" (fun f =>
    Gives "yield" Instruction [] []);
  row "1011111100000000" (fun f =>
    Gives "nop" Instruction [] []);
  row "10110110011e00if" (fun f =>
    if (f "i" =? 0) && (f "f" =? 0) then Unpredictable else Gives (append "cps" (if f "e" =? 0 then "ie" else "id")) ChangeProcessorState [En (f "e" =? 0); Pri (f "i" =? 1); Flt (f "f" =? 1)] [CpsOp (f "i" =? 1) (f "f" =? 1)]);
  row "01000100d1101ddd" (fun f =>
    Gives "add" AddSub [D (f "d"); N 13; M (f "d"); Flags Never; Carry false; Sub false] [R (f "d"); R 13; R (f "d")]);
  row "010001001mmmm101" (fun f =>
    if f "m" =? 13 then Other else Gives "add" AddSub [D 13; N 13; M (f "m"); Flags Never; Carry false; Sub false] [R 13; R (f "m")]);
  row "010001111mmmm000" (fun f =>
    Gives "blx" Branch [M (f "m"); Link true; Cond 15; Delta (-2)] [R (f "m")]);
  row "010001110mmmm000" (fun f =>
    Gives "bx" Branch [M (f "m"); Link false; Cond 15; Delta 0] [R (f "m")]);
  row "0100001110mmmddd" (fun f =>
    Gives "bics" BitClear [D (f "d"); N (f "d"); M (f "m"); Flags NotInITBlock] [R (f "d"); R (f "m")]);
  row "0100001100mmmddd" (fun f =>
    Gives "orrs" BitOp [D (f "d"); N (f "d"); M (f "m"); Flags NotInITBlock; Op OpOr] [R (f "d"); R (f "m")]);
  row "0100000111mmmddd" (fun f =>
    Gives "rors" ShiftOp [D (f "d"); N (f "d"); M (f "m"); Flags NotInITBlock; Ty SR_ROR] [R (f "d"); R (f "m")]);
  row "0100000110mmmddd" (fun f =>
    Gives "sbcs" AddSub [D (f "d"); N (f "d"); M (f "m"); Flags NotInITBlock; Carry true; Sub true] [R (f "d"); R (f "m")]);
  row "0100000101mmmddd" (fun f =>
    Gives "adcs" AddSub [D (f "d"); N (f "d"); M (f "m"); Flags NotInITBlock; Carry true; Sub false] [R (f "d"); R (f "m")]);
  row "0100000100mmmddd" (fun f =>
    Gives "asrs" ShiftOp [D (f "d"); N (f "d"); M (f "m"); Flags NotInITBlock; Ty SR_ASR] [R (f "d"); R (f "m")]);
  row "0100000011mmmddd" (fun f =>
    Gives "lsrs" ShiftOp [D (f "d"); N (f "d"); M (f "m"); Flags NotInITBlock; Ty SR_LSR] [R (f "d"); R (f "m")]);
  row "0100000010mmmddd" (fun f =>
    Gives "lsls" ShiftOp [D (f "d"); N (f "d"); M (f "m"); Flags NotInITBlock; Ty SR_LSL] [R (f "d"); R (f "m")]);
  row "0100000001mmmddd" (fun f =>
    Gives "eors" BitOp [D (f "d"); N (f "d"); M (f "m"); Flags NotInITBlock; Op OpXor] [R (f "d"); R (f "m")]);
  row "0100000000mmmddd" (fun f =>
    Gives "ands" BitOp [D (f "d"); N (f "d"); M (f "m"); Flags NotInITBlock; Op OpAnd] [R (f "d"); R (f "m")]);
  row "0100001001nnnddd" (fun f =>
    Gives "rsbs" ReverseSubtract [D (f "d"); N (f "n"); Flags NotInITBlock; Imm 0] [R (f "d"); R (f "n"); V 0]);
  row "0100001101nnnddd" (fun f =>
    Gives "muls" Multiply [D (f "d"); N (f "n"); M (f "d"); Flags NotInITBlock] [R (f "d"); R (f "n"); R (f "d")]);
  row "1011001011mmmddd" (fun f =>
    Gives "uxtb" Extend [D (f "d"); M (f "m"); Rot 0; Flags Never; Wid 8; Sgn false] [R (f "d"); R (f "m")]);
  row "1011001010mmmddd" (fun f =>
    Gives "uxth" Extend [D (f "d"); M (f "m"); Rot 0; Flags Never; Wid 16; Sgn false] [R (f "d"); R (f "m")]);
  row "1011001001mmmddd" (fun f =>
    Gives "sxtb" Extend [D (f "d"); M (f "m"); Rot 0; Flags Never; Wid 8; Sgn true] [R (f "d"); R (f "m")]);
  row "1011001000mmmddd" (fun f =>
    Gives "sxth" Extend [D (f "d"); M (f "m"); Rot 0; Flags Never; Wid 16; Sgn true] [R (f "d"); R (f "m")]);
  row "1011101011mmmddd" (fun f =>
    Gives "revsh" ByteReverse [D (f "d"); M (f "m"); Wid 2; Sgn true] [R (f "d"); R (f "m")]);
  row "1011101001mmmddd" (fun f =>
    Gives "rev16" ByteReverse [D (f "d"); M (f "m"); Wid 2; Sgn false] [R (f "d"); R (f "m")]);
  row "1011101000mmmddd" (fun f =>
    Gives "rev" ByteReverse [D (f "d"); M (f "m"); Wid 4; Sgn false] [R (f "d"); R (f "m")]);
  row "0000000000mmmddd" (fun f =>
    Gives "movs" Move [D (f "d"); M (f "m"); Flags Always; Neg false] [R (f "d"); R (f "m")]);
  row "0100001111mmmddd" (fun f =>
    Gives "mvns" Move [D (f "d"); M (f "m"); Flags NotInITBlock; Neg true] [R (f "d"); R (f "m")]);
  row_dev "0100001011mmmnnn" (fun f =>
    Gives "cmn" Compare [N (f "n"); M (f "m"); Neg false] [R (f "n"); R (f "m")])
    (fun py f => Gives "cmn" Compare [N (f "n"); M (f "n"); Neg false] [R (f "n"); R (f "n")]);
  row_dev "0100001010mmmnnn" (fun f =>
    Gives "cmp" Compare [N (f "n"); M (f "m"); Neg true] [R (f "n"); R (f "m")])
    (fun py f => Gives "cmp" Compare [N (f "n"); M (f "n"); Neg true] [R (f "n"); R (f "n")]);
  row "0100001000mmmnnn" (fun f =>
    Gives "tst" Test [N (f "n"); M (f "m"); ShT SR_None; ShN 0] [R (f "n"); R (f "m")]);
  row "101100001iiiiiii" (fun f =>
    Gives "sub" AddSub [D 13; N 13; Flags Never; Imm (4 * f "i"); Carry false; Sub true] [R 13; V (4 * f "i")]);
  row "101100000iiiiiii" (fun f =>
    Gives "add" AddSub [D 13; N 13; Flags Never; Imm (4 * f "i"); Carry false; Sub false] [R 13; V (4 * f "i")]);
  row "01000100dmmmmddd" (fun f =>
    Gives "add" AddSub [D (f "d"); N (f "d"); M (f "m"); Flags Never; Carry false; Sub false] [R (f "d"); R (f "m")]);
  row "01000110dmmmmddd" (fun f =>
    Gives "mov" Move [D (f "d"); M (f "m"); Flags Never; Neg false] [R (f "d"); R (f "m")]);
  row_dev "01000101nmmmmnnn" (fun f =>
    Gives "cmp" Compare [N (f "n"); M (f "m"); Neg true] [R (f "n"); R (f "m")])
    (fun py f => Gives "cmp" Compare [N (f "n"); M (f "n" mod 8); Neg true] [R (f "n"); R (f "n" mod 8)]);
  row "10111110iiiiiiii" (fun f =>
    Gives "bkpt" Instruction [Imm (f "i")] [V (f "i")]);
  row "11011111iiiiiiii" (fun f =>
    Gives "svc" Instruction [Imm (f "i")] [V (f "i")]);
  row "11011110iiiiiiii" (fun f =>
    Gives "udf" Instruction [Imm (f "i")] [V (f "i")]);
  row "0001111iiinnnddd" (fun f =>
    Gives "subs" AddSub [D (f "d"); N (f "n"); Flags NotInITBlock; Imm (f "i"); Carry false; Sub true] [R (f "d"); R (f "n"); ImmRefOp]);
  row "0001110iiinnnddd" (fun f =>
    Gives "adds" AddSub [D (f "d"); N (f "n"); Flags NotInITBlock; Imm (f "i"); Carry false; Sub false] [R (f "d"); R (f "n"); ImmRefOp]);
  row "0001101mmmnnnddd" (fun f =>
    Gives "subs" AddSub [D (f "d"); N (f "n"); M (f "m"); Flags NotInITBlock; Carry false; Sub true] [R (f "d"); R (f "n"); R (f "m")]);
  row "0001100mmmnnnddd" (fun f =>
    Gives "adds" AddSub [D (f "d"); N (f "n"); M (f "m"); Flags NotInITBlock; Carry false; Sub false] [R (f "d"); R (f "n"); R (f "m")]);
  row "0101111mmmnnnttt" (fun f =>
    Gives "ldrsh" Load [T (f "t"); N (f "n"); M (f "m"); Idx true; Add true; Wb false; ShT SR_None; ShN 0; Mem 16; Sgn true] [R (f "t"); MemOp [R (f "n"); R (f "m")]]);
  row "0101110mmmnnnttt" (fun f =>
    Gives "ldrb" Load [T (f "t"); N (f "n"); M (f "m"); Idx true; Add true; Wb false; ShT SR_None; ShN 0; Mem 8; Sgn false] [R (f "t"); MemOp [R (f "n"); R (f "m")]]);
  row "0101101mmmnnnttt" (fun f =>
    Gives "ldrh" Load [T (f "t"); N (f "n"); M (f "m"); Idx true; Add true; Wb false; ShT SR_None; ShN 0; Mem 16; Sgn false] [R (f "t"); MemOp [R (f "n"); R (f "m")]]);
  row "0101100mmmnnnttt" (fun f =>
    Gives "ldr" Load [T (f "t"); N (f "n"); M (f "m"); Idx true; Add true; Wb false; ShT SR_None; ShN 0; Mem 32; Sgn false] [R (f "t"); MemOp [R (f "n"); R (f "m")]]);
  row "0101011mmmnnnttt" (fun f =>
    Gives "ldrsb" Load [T (f "t"); N (f "n"); M (f "m"); Idx true; Add true; Wb false; ShT SR_None; ShN 0; Mem 8; Sgn true] [R (f "t"); MemOp [R (f "n"); R (f "m")]]);
  row "0101010mmmnnnttt" (fun f =>
    Gives "strb" Store [T (f "t"); N (f "n"); M (f "m"); Idx true; Add true; Wb false; ShT SR_None; ShN 0; Mem 8; Sgn false] [R (f "t"); MemOp [R (f "n"); R (f "m")]]);
  row "0101001mmmnnnttt" (fun f =>
    Gives "strh" Store [T (f "t"); N (f "n"); M (f "m"); Idx true; Add true; Wb false; ShT SR_None; ShN 0; Mem 16; Sgn false] [R (f "t"); MemOp [R (f "n"); R (f "m")]]);
  row "0101000mmmnnnttt" (fun f =>
    Gives "str" Store [T (f "t"); N (f "n"); M (f "m"); Idx true; Add true; Wb false; ShT SR_None; ShN 0; Mem 32; Sgn false] [R (f "t"); MemOp [R (f "n"); R (f "m")]]);
  row "1011010lrrrrrrrr" (fun f =>
    if ones_below 16 (reglist 0 (f "l") (f "r")) =? 0 then Unpredictable else Gives "push" Push [Regs (reglist 0 (f "l") (f "r"))] [RL (reglist 0 (f "l") (f "r"))]);
  row "1011110prrrrrrrr" (fun f =>
    if ones_below 16 (reglist (f "p") 0 (f "r")) =? 0 then Unpredictable else Gives "pop" Pop [Regs (reglist (f "p") 0 (f "r"))] [RL (reglist (f "p") 0 (f "r"))]);
  row "00111dddiiiiiiii" (fun f =>
    Gives "subs" AddSub [D (f "d"); N (f "d"); Flags NotInITBlock; Imm (f "i"); Carry false; Sub true] [R (f "d"); ImmRefOp]);
  row "00110dddiiiiiiii" (fun f =>
    Gives "adds" AddSub [D (f "d"); N (f "d"); Flags NotInITBlock; Imm (f "i"); Carry false; Sub false] [R (f "d"); ImmRefOp]);
  row "10101dddiiiiiiii" (fun f =>
    Gives "add" AddSub [D (f "d"); N 13; Flags Never; Imm (4 * f "i"); Carry false; Sub false] [R (f "d"); R 13; V (4 * f "i")]);
  row "00010iiiiimmmddd" (fun f =>
    Gives "asrs" ShiftOp [D (f "d"); N (f "m"); Flags NotInITBlock; ShN (if f "i" =? 0 then 32 else f "i"); Ty SR_ASR] [R (f "d"); R (f "m"); V (if f "i" =? 0 then 32 else f "i")]);
  row "00001iiiiimmmddd" (fun f =>
    Gives "lsrs" ShiftOp [D (f "d"); N (f "m"); Flags NotInITBlock; ShN (if f "i" =? 0 then 32 else f "i"); Ty SR_LSR] [R (f "d"); R (f "m"); V (if f "i" =? 0 then 32 else f "i")]);
  row "00000iiiiimmmddd" (fun f =>
    Gives "lsls" ShiftOp [D (f "d"); N (f "m"); Flags NotInITBlock; ShN (f "i"); Ty SR_LSL] [R (f "d"); R (f "m"); V (f "i")]);
  row "10100dddiiiiiiii" (fun f =>
    Gives "adr" AddressToRegister [D (f "d"); Add true; Imm (4 * f "i")] [R (f "d"); LabelOp (4 * f "i")]);
  row "00100dddiiiiiiii" (fun f =>
    Gives "movs" Move [D (f "d"); Flags NotInITBlock; Imm (f "i"); Neg false] [R (f "d"); V (f "i")]);
  row "00101nnniiiiiiii" (fun f =>
    Gives "cmp" Compare [N (f "n"); Imm (f "i"); Neg true] [R (f "n"); V (f "i")]);
  row_dev "11100iiiiiiiiiii" (fun f =>
    Gives "b" Branch [Link false; Cond 15; Delta 0; Imm (twos 12 (2 * f "i"))] [LabelOp (twos 12 (2 * f "i"))])
    (fun py f => Gives "b" Branch [Link false; Cond 15; Delta 0; Imm (flipped (twos 12 (2 * f "i")))] [LabelOp (twos 12 (2 * f "i"))]);
  row "10001iiiiinnnttt" (fun f =>
    Gives "ldrh" Load [T (f "t"); N (f "n"); Idx true; Add true; Wb false; Imm (2 * f "i"); Mem 16; Sgn false] [R (f "t"); MemOp [R (f "n"); V0 (2 * f "i")]]);
  row "10000iiiiinnnttt" (fun f =>
    Gives "strh" Store [T (f "t"); N (f "n"); Idx true; Add true; Wb false; Imm (2 * f "i"); Mem 16; Sgn false] [R (f "t"); MemOp [R (f "n"); V0 (2 * f "i")]]);
  row "01111iiiiinnnttt" (fun f =>
    Gives "ldrb" Load [T (f "t"); N (f "n"); Idx true; Add true; Wb false; Imm (f "i"); Mem 8; Sgn false] [R (f "t"); MemOp [R (f "n"); V0 (f "i")]]);
  row "01110iiiiinnnttt" (fun f =>
    Gives "strb" Store [T (f "t"); N (f "n"); Idx true; Add true; Wb false; Imm (f "i"); Mem 8; Sgn false] [R (f "t"); MemOp [R (f "n"); V0 (f "i")]]);
  row "01101iiiiinnnttt" (fun f =>
    Gives "ldr" Load [T (f "t"); N (f "n"); Idx true; Add true; Wb false; Imm (4 * f "i"); Mem 32; Sgn false] [R (f "t"); MemOp [R (f "n"); V0 (4 * f "i")]]);
  row "01100iiiiinnnttt" (fun f =>
    Gives "str" Store [T (f "t"); N (f "n"); Idx true; Add true; Wb false; Imm (4 * f "i"); Mem 32; Sgn false] [R (f "t"); MemOp [R (f "n"); V0 (4 * f "i")]]);
  row "01001tttiiiiiiii" (fun f =>
    Gives "ldr" LoadLiteral [T (f "t"); Add true; Imm (4 * f "i"); Mem 32; Sgn false] [R (f "t"); MemOp [R 15; V (4 * f "i")]]);
  row "10011tttiiiiiiii" (fun f =>
    Gives "ldr" Load [T (f "t"); N 13; Idx true; Add true; Wb false; Imm (4 * f "i"); Mem 32; Sgn false] [R (f "t"); MemOp [R 13; V0 (4 * f "i")]]);
  row "10010tttiiiiiiii" (fun f =>
    Gives "str" Store [T (f "t"); N 13; Idx true; Add true; Wb false; Imm (4 * f "i"); Mem 32; Sgn false] [R (f "t"); MemOp [R 13; V0 (4 * f "i")]]);
  row "11001nnnrrrrrrrr" (fun f =>
    if f "r" =? 0 then Unpredictable else Gives "ldm" LoadMultiple [N (f "n"); Regs (f "r"); Wb (negb (Z.testbit (f "r") (f "n")))] [RegOp (f "n") (negb (Z.testbit (f "r") (f "n"))); RL (f "r")]);
  row "11000nnnrrrrrrrr" (fun f =>
    if f "r" =? 0 then Unpredictable else Gives "stm" StoreMultiple [N (f "n"); Regs (f "r"); Wb true] [RegOp (f "n") true; RL (f "r")]);
  row_dev "1101cccciiiiiiii" (fun f =>
    Gives (append "b" (condition (f "c"))) Branch [Link false; Cond (f "c"); Delta 0; Imm (twos 9 (2 * f "i"))] [LabelOp (twos 9 (2 * f "i"))])
    (fun py f => Gives (append "b" (condition (f "c"))) Branch [Link false; Cond (f "c"); Delta 0; Imm (flipped (twos 9 (2 * f "i")))] [LabelOp (twos 9 (2 * f "i"))])
].

Definition isa32 : list isa_row := [
  row "1111100001001101tttt110100000100" (fun f =>
    if bad (f "t") then Unpredictable else Gives "push.w" Push [Regs (2 ^ f "t")] [RL (2 ^ f "t")]);
  row "1111100001011101tttt101100000100" (fun f =>
    Gives "pop.w" Pop [Regs (2 ^ f "t")] [RL (2 ^ f "t")]);
  row "1111001110111111100011110110oooo" (fun f =>
    Gives "isb" Instruction [] [BarrierOp (f "o")]);
  row "1111001110111111100011110101oooo" (fun f =>
    Gives "dmb" Instruction [] [BarrierOp (f "o")]);
  row "1111001110111111100011110100oooo" (fun f =>
    Gives "dsb" Instruction [] [BarrierOp (f "o")]);
  row_dev "11101010010s11110000dddd0000mmmm" (fun f =>
    Gives (append "mov" (if f "s" =? 1 then "s.w" else ".w")) Move [D (f "d"); M (f "m"); Flags (if f "s" =? 1 then Always else Never); Neg false] [R (f "d"); R (f "m")])
    (fun py f => Gives (append "mov" (match py with Py3 => "s.w" | Py2 => if f "s" =? 1 then "s.w" else ".w" end)) Move [D (f "d"); M (f "m"); Flags (if f "s" =? 1 then Always else Never); Neg false] [R (f "d"); R (f "m")]);
  row "11111010010111111111dddd10rrmmmm" (fun f =>
    Gives "uxtb.w" Extend [D (f "d"); M (f "m"); Rot (8 * f "r"); Flags Never; Wid 8; Sgn false] ([R (f "d"); R (f "m")] ++ (if f "r" =? 0 then [] else [ShiftRotateOp SR_ROR (8 * f "r")])));
  row "11111010000111111111dddd10rrmmmm" (fun f =>
    Gives "uxth.w" Extend [D (f "d"); M (f "m"); Rot (8 * f "r"); Flags Never; Wid 16; Sgn false] ([R (f "d"); R (f "m")] ++ (if f "r" =? 0 then [] else [ShiftRotateOp SR_ROR (8 * f "r")])));
  row "11111010010011111111dddd10rrmmmm" (fun f =>
    Gives "sxtb.w" Extend [D (f "d"); M (f "m"); Rot (8 * f "r"); Flags Never; Wid 8; Sgn true] ([R (f "d"); R (f "m")] ++ (if f "r" =? 0 then [] else [ShiftRotateOp SR_ROR (8 * f "r")])));
  row "11111010000011111111dddd10rrmmmm" (fun f =>
    Gives "sxth.w" Extend [D (f "d"); M (f "m"); Rot (8 * f "r"); Flags Never; Wid 16; Sgn true] ([R (f "d"); R (f "m")] ++ (if f "r" =? 0 then [] else [ShiftRotateOp SR_ROR (8 * f "r")])));
  row "111110110000nnnn1111dddd0000mmmm" (fun f =>
    if bad (f "d") || bad (f "n") || bad (f "m") then Unpredictable else Gives "mul" Multiply [D (f "d"); N (f "n"); M (f "m"); Flags Never] [R (f "d"); R (f "n"); R (f "m")]);
  row "111110101001mmmm1111dddd1011xxxx" (fun f =>
    if negb (f "m" =? f "x") then Unpredictable else Gives "revsh.w" ByteReverse [D (f "d"); M (f "m"); Wid 2; Sgn true] [R (f "d"); R (f "m")]);
  row "111110101001mmmm1111dddd1001xxxx" (fun f =>
    if negb (f "m" =? f "x") then Unpredictable else Gives "rev16.w" ByteReverse [D (f "d"); M (f "m"); Wid 2; Sgn false] [R (f "d"); R (f "m")]);
  row "111110101001mmmm1111dddd1000xxxx" (fun f =>
    if negb (f "m" =? f "x") then Unpredictable else Gives "rev.w" ByteReverse [D (f "d"); M (f "m"); Wid 4; Sgn false] [R (f "d"); R (f "m")]);
  row "11110011111011111000ddddyyyyyyyy" (fun f =>
    if bad (f "d") || negb (special (f "y")) then Unpredictable else Gives "mrs" MoveFromSpecial [D (f "d"); Sys (f "y")] [R (f "d"); SpecialOp (bits 8 (f "y")) None]);
  row "111110000100nnnntttt000000iimmmm" (fun f =>
    if f "n" =? 15 then Other else Gives "str.w" Store [T (f "t"); N (f "n"); M (f "m"); Idx true; Add true; Wb false; ShT SR_LSL; ShN (f "i"); Mem 32; Sgn false] [R (f "t"); MemOp [R (f "n"); R (f "m"); ShiftRotateOp SR_LSL (f "i")]]);
  row "111110000010nnnntttt000000iimmmm" (fun f =>
    if f "n" =? 15 then Other else Gives "strh.w" Store [T (f "t"); N (f "n"); M (f "m"); Idx true; Add true; Wb false; ShT SR_LSL; ShN (f "i"); Mem 16; Sgn false] [R (f "t"); MemOp [R (f "n"); R (f "m"); ShiftRotateOp SR_LSL (f "i")]]);
  row "111110000000nnnntttt000000iimmmm" (fun f =>
    if f "n" =? 15 then Other else Gives "strb.w" Store [T (f "t"); N (f "n"); M (f "m"); Idx true; Add true; Wb false; ShT SR_LSL; ShN (f "i"); Mem 8; Sgn false] [R (f "t"); MemOp [R (f "n"); R (f "m"); ShiftRotateOp SR_LSL (f "i")]]);
  row "111110010011nnnntttt000000iimmmm" (fun f =>
    if f "n" =? 15 then Other else Gives "ldrsh.w" Load [T (f "t"); N (f "n"); M (f "m"); Idx true; Add true; Wb false; ShT SR_LSL; ShN (f "i"); Mem 16; Sgn true] [R (f "t"); MemOp [R (f "n"); R (f "m"); ShiftRotateOp SR_LSL (f "i")]]);
  row "111110010001nnnntttt000000iimmmm" (fun f =>
    if f "n" =? 15 then Other else Gives "ldrsb.w" Load [T (f "t"); N (f "n"); M (f "m"); Idx true; Add true; Wb false; ShT SR_LSL; ShN (f "i"); Mem 8; Sgn true] [R (f "t"); MemOp [R (f "n"); R (f "m"); ShiftRotateOp SR_LSL (f "i")]]);
  row "111110000101nnnntttt000000iimmmm" (fun f =>
    if f "n" =? 15 then Other else Gives "ldr.w" Load [T (f "t"); N (f "n"); M (f "m"); Idx true; Add true; Wb false; ShT SR_LSL; ShN (f "i"); Mem 32; Sgn false] [R (f "t"); MemOp [R (f "n"); R (f "m"); ShiftRotateOp SR_LSL (f "i")]]);
  row "111110000011nnnntttt000000iimmmm" (fun f =>
    if f "n" =? 15 then Other else Gives "ldrh.w" Load [T (f "t"); N (f "n"); M (f "m"); Idx true; Add true; Wb false; ShT SR_LSL; ShN (f "i"); Mem 16; Sgn false] [R (f "t"); MemOp [R (f "n"); R (f "m"); ShiftRotateOp SR_LSL (f "i")]]);
  row "111110000001nnnntttt000000iimmmm" (fun f =>
    if f "n" =? 15 then Other else Gives "ldrb.w" Load [T (f "t"); N (f "n"); M (f "m"); Idx true; Add true; Wb false; ShT SR_LSL; ShN (f "i"); Mem 8; Sgn false] [R (f "t"); MemOp [R (f "n"); R (f "m"); ShiftRotateOp SR_LSL (f "i")]]);
  row_dev "11101001001011010l0rrrrrrrrrrrrr" (fun f =>
    if ones_below 16 (reglist 0 (f "l") (f "r")) =? 0 then Unpredictable else Gives "push.w" Push [Regs (reglist 0 (f "l") (f "r"))] [RL (reglist 0 (f "l") (f "r"))])
    (fun py f => Raises NameError);
  row "111100111000nnnn1000kk00yyyyyyyy" (fun f =>
    if (f "k" =? 0) || negb (f "k" =? 2) && (4 <=? f "y") || bad (f "n") || negb (special (f "y")) then Unpredictable else Gives "msr" MoveToSpecial [N (f "n"); Sys (f "y")] [SpecialOp (bits 8 (f "y")) (Some (bits 2 (f "k"))); R (f "n")]);
  row "111010100001nnnn0iii1111iiyymmmm" (fun f =>
    if bad (f "n") || bad (f "m") then Unpredictable else Gives "tst.w" Test [N (f "n"); M (f "m"); ShT (fst (imm_shift (f "y") (f "i"))); ShN (snd (imm_shift (f "y") (f "i")))] ([R (f "n"); R (f "m")] ++ (if snd (imm_shift (f "y") (f "i")) =? 0 then [] else [ShiftRotateOp (fst (imm_shift (f "y") (f "i"))) (snd (imm_shift (f "y") (f "i")))])));
  row "1110100010111101pl0rrrrrrrrrrrrr" (fun f =>
    if (ones_below 16 (reglist (f "p") (f "l") (f "r")) <? 2) || (f "p" =? 1) && (f "l" =? 1) then Unpredictable else Gives "pop.w" Pop [Regs (reglist (f "p") (f "l") (f "r"))] [RL (reglist (f "p") (f "l") (f "r"))]);
  row "11110i10000011110iiiddddiiiiiiii" (fun f =>
    Gives "adr.w" AddressToRegister [D (f "d"); Add true; Imm (f "i")] [R (f "d"); LabelOp (f "i")]);
  row "11110i10101011110iiiddddiiiiiiii" (fun f =>
    Gives "adr.w" AddressToRegister [D (f "d"); Add false; Imm (f "i")] [R (f "d"); LabelOp (f "i")]);
  row_dev "11101010011s11110iiiddddiiyymmmm" (fun f =>
    Gives (append "mvn" (if f "s" =? 1 then "s.w" else ".w")) ShiftedMoveNegate [D (f "d"); M (f "m"); Flags (if f "s" =? 1 then Always else Never); ShT (fst (imm_shift (f "y") (f "i"))); ShN (snd (imm_shift (f "y") (f "i")))] [R (f "d"); R (f "m"); ShiftRotateOp (fst (imm_shift (f "y") (f "i"))) (snd (imm_shift (f "y") (f "i")))])
    (fun py f => Gives (append "mvn" (match py with Py3 => "s.w" | Py2 => if f "s" =? 1 then "s.w" else ".w" end)) ShiftedMoveNegate [D (f "d"); M (f "m"); Flags (if f "s" =? 1 then Always else Never); ShT (fst (imm_shift (f "y") (f "i"))); ShN (snd (imm_shift (f "y") (f "i")))] [R (f "d"); R (f "m"); ShiftRotateOp (fst (imm_shift (f "y") (f "i"))) (snd (imm_shift (f "y") (f "i")))]);
  row "11110i010001nnnn0iii1111iiiiiiii" (fun f =>
    Gives "cmn" Compare [N (f "n"); Imm (expand_imm (f "i")); Neg false] [R (f "n"); V (expand_imm (f "i"))]);
  row "11110i011011nnnn0iii1111iiiiiiii" (fun f =>
    Gives "cmp.w" Compare [N (f "n"); Imm (expand_imm (f "i")); Neg true] [R (f "n"); V (expand_imm (f "i"))]);
  row "111101111111iiii1010iiiiiiiiiiii" (fun f =>
    Gives "udf.w" Instruction [Imm (f "i")] [V (f "i")]);
  row_dev "11110i00010s11110iiiddddiiiiiiii" (fun f =>
    Gives (append "mov" (if f "s" =? 1 then "s.w" else ".w")) Move [D (f "d"); Flags (if f "s" =? 1 then Always else Never); Imm (expand_imm (f "i")); Neg false] [R (f "d"); V (expand_imm (f "i"))])
    (fun py f => Gives (append "mov" (match py with Py3 => "s.w" | Py2 => if f "s" =? 1 then "s.w" else ".w" end)) Move [D (f "d"); Flags (if f "s" =? 1 then Always else Never); Imm (expand_imm (f "i")); Neg false] [R (f "d"); V (expand_imm (f "i"))]);
  row "11111001u0011111ttttiiiiiiiiiiii" (fun f =>
    if f "t" =? 15 then Other else Gives "ldrsb.w" LoadLiteral [T (f "t"); Add (f "u" =? 1); Imm (f "i"); Mem 8; Sgn true] [R (f "t"); MemOp [R 15; V0 (if f "u" =? 1 then f "i" else - f "i")]]);
  row "11111001u0111111ttttiiiiiiiiiiii" (fun f =>
    if f "t" =? 15 then Other else Gives "ldrsh.w" LoadLiteral [T (f "t"); Add (f "u" =? 1); Imm (f "i"); Mem 16; Sgn true] [R (f "t"); MemOp [R 15; V0 (if f "u" =? 1 then f "i" else - f "i")]]);
  row "11111000u0011111ttttiiiiiiiiiiii" (fun f =>
    if f "t" =? 15 then Other else Gives "ldrb.w" LoadLiteral [T (f "t"); Add (f "u" =? 1); Imm (f "i"); Mem 8; Sgn false] [R (f "t"); MemOp [R 15; V0 (if f "u" =? 1 then f "i" else - f "i")]]);
  row "11111000u0111111ttttiiiiiiiiiiii" (fun f =>
    if f "t" =? 15 then Other else Gives "ldrh.w" LoadLiteral [T (f "t"); Add (f "u" =? 1); Imm (f "i"); Mem 16; Sgn false] [R (f "t"); MemOp [R 15; V0 (if f "u" =? 1 then f "i" else - f "i")]]);
  row "11111000u1011111ttttiiiiiiiiiiii" (fun f =>
    if f "t" =? 15 then Other else Gives "ldr.w" LoadLiteral [T (f "t"); Add (f "u" =? 1); Imm (f "i"); Mem 32; Sgn false] [R (f "t"); MemOp [R 15; V0 (if f "u" =? 1 then f "i" else - f "i")]]);
  row "1110100010w0nnnn0l0rrrrrrrrrrrrr" (fun f =>
    if (f "n" =? 15) || (ones_below 16 (reglist 0 (f "l") (f "r")) <? 2) || (f "w" =? 1) && Z.testbit (reglist 0 (f "l") (f "r")) (f "n") then Unpredictable else Gives "stm.w" StoreMultiple [N (f "n"); Regs (reglist 0 (f "l") (f "r")); Wb (f "w" =? 1)] [RegOp (f "n") (f "w" =? 1); RL (reglist 0 (f "l") (f "r"))]);
  row "11110j100100kkkk0iiiddddiiiiiiii" (fun f =>
    Gives "movw" Move [D (f "d"); Flags Never; Imm (4096 * f "k" + 2048 * f "j" + f "i"); Neg false] [R (f "d"); V (4096 * f "k" + 2048 * f "j" + f "i")]);
  row "1110100010w1nnnnpl0rrrrrrrrrrrrr" (fun f =>
    if (f "w" =? 1) && (f "n" =? 13) then Other else if (f "n" =? 15) || (ones_below 16 (reglist (f "p") (f "l") (f "r")) <? 2) || (f "p" =? 1) && (f "l" =? 1) || (f "w" =? 1) && Z.testbit (reglist (f "p") (f "l") (f "r")) (f "n") then Unpredictable else Gives "ldm.w" LoadMultiple [N (f "n"); Regs (reglist (f "p") (f "l") (f "r")); Wb (f "w" =? 1)] [RegOp (f "n") (f "w" =? 1); RL (reglist (f "p") (f "l") (f "r"))]);
  row "11110i01110snnnn0iiiddddiiiiiiii" (fun f =>
    if bad (f "d") || bad (f "n") then Unpredictable else Gives (append "rsb" (if f "s" =? 1 then "s.w" else ".w")) ReverseSubtract [D (f "d"); N (f "n"); Flags (if f "s" =? 1 then Always else Never); Imm (expand_imm (f "i"))] [R (f "d"); R (f "n"); V (expand_imm (f "i"))]);
  row_dev "11110skkkkkkkkkk11a1biiiiiiiiiii" (fun f =>
    Gives "bl" Branch [Link true; Cond 15; Delta 0; Imm (twos 25 (bl_offset (f "s") (f "a") (f "b") (f "k") (f "i")))] [LabelOp (twos 25 (bl_offset (f "s") (f "a") (f "b") (f "k") (f "i")))])
    (fun py f => Gives "bl" Branch [Link true; Cond 15; Delta 0; Imm (flipped (twos 25 (bl_offset (f "s") (f "a") (f "b") (f "k") (f "i"))))] [LabelOp (twos 25 (bl_offset (f "s") (f "a") (f "b") (f "k") (f "i")))])
].

(** The encodings whose decoding deviates from the document: cmn, cmp (registers), the two
    branches b, mov.w (register), push.w, mvn.w (register), mov.w (immediate), bl. *)
Definition deviating : list string :=
  ["0100001011mmmnnn"; "0100001010mmmnnn"; "01000101nmmmmnnn"; "11100iiiiiiiiiii"; "1101cccciiiiiiii";
   "11101010010s11110000dddd0000mmmm"; "11101001001011010l0rrrrrrrrrrrrr"; "11101010011s11110iiiddddiiyymmmm";
   "11110i00010s11110iiiddddiiiiiiii"; "11110skkkkkkkkkk11a1biiiiiiiiiii"]%string.

(** Decoding with the built-in instruction set. *)
From Verif Require Import TableModel.
Definition decode_bytes (py : pyver) (data : list Z) (a : Z) : res insn :=
  let* t := DECODER_TREE in snd (decode call_handler py t data a).
Definition bytes (data : list Z) : Prop := Forall (fun b => 0 <= b < 256) data.
