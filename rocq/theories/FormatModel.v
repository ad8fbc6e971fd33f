(** * Model of /repo/cmdis/formatter.py

    Formatting an operand reads the formatter's current instruction, may append to its
    comments, and may change the operand object itself ([SpecialRegisterOperand] keeps a
    bitstring that [!=] changes).  Not modelled: the attribute [cpu], never read, and the
    base class [Operand]. *)
From Verif Require Export InsnModel.

(** formatter.py:199-203.  The text added so far to the comments and the instruction
    being formatted. *)
Record formatter := mkfmt { f_instruction : option insn; f_comments : list string }.

(** formatter.py:235-236 *)
Definition add_comment (f : formatter) (c : string) : formatter :=
  mkfmt (f_instruction f) (f_comments f ++ [c]).

(** [CORE_REGISTER_NAMES[n]] *)
Definition register_name (n : Z) : res string :=
  match dict_get Z.eqb n CORE_REGISTER_NAMES with Some s => Ok s | None => Err KeyError end.

(** formatter.py:30-34 *)
Definition format_register (reg : Z) (wback : bool) : res string :=
  let* result := register_name reg in
  Ok (if wback then (result ++ "!")%string else result).

(** formatter.py:45-52 *)
Definition add_reg_range (regs : list string) (startRange endRange : Z) : res (list string) :=
  if negb (startRange =? -1) then
    if startRange =? endRange then
      let* s := register_name startRange in Ok (regs ++ [s])
    else
      let* startReg := register_name startRange in
      let* endReg := register_name endRange in
      Ok (regs ++ [(startReg ++ "-" ++ endReg)%string])
  else Ok regs.

(** formatter.py:54-63; [n] counts the bits already seen *)
Fixpoint reglist_loop (l : list Z) (n : Z) (regs : list string) (startRange endRange : Z) : res (list string) :=
  match l with
  | [] => add_reg_range regs startRange endRange
  | b :: l' =>
    if negb (b =? 0) then
      reglist_loop l' (n + 1) regs (if startRange =? -1 then n else startRange) n
    else
      let* regs' := add_reg_range regs startRange endRange in
      reglist_loop l' (n + 1) regs' (-1) (-1)
  end.

(** formatter.py:40-65 *)
Definition format_reglist (reglist : bs) : res string :=
  let* regs := reglist_loop (bs_iter reglist) 0 [] (-1) (-1) in
  Ok ("{" ++ join "," regs ++ "}")%string.

(** formatter.py:72-80 for an int *)
Definition format_immediate (f : formatter) (imm : Z) (hideIfZero : bool) : formatter * option string :=
  if ((imm =? 0) && hideIfZero)%bool then (f, None) else
  let f := if 9 <? imm then add_comment f ("0x" ++ fmt_x imm) else f in
  (f, Some ("#" ++ fmt_d imm)%string).

(** formatter.py:72-80 for a bitstring ([hideIfZero] is False); ["%x"] and ["%d"] use
    [__index__] and [__int__] *)
Definition format_immediate_bits (f : formatter) (imm : bs) : res (formatter * option string) :=
  let* '(imm, above) := bs_gt imm (VInt 9) in
  let f := if above then add_comment f ("0x" ++ fmt_x (bv imm)) else f in
  Ok (f, Some ("#" ++ fmt_d (bv imm))%string).

(** formatter.py:86-91; without an instruction [None.address] is AttributeError *)
Definition format_label (f : formatter) (offset : Z) : res (formatter * option string) :=
  match f_instruction f with
  | None => Err AttributeError
  | Some i =>
    let comment := ("0x" ++ fmt_x (i_address i + 4 + offset))%string in
    Ok (add_comment f comment, Some ("." ++ fmt_plus_d (offset + 4))%string)
  end.

(** formatter.py:94-99 *)
Definition OP_NAMES : list string := ["None"; "LSL"; "LSR"; "ASR"; "ROR"; "RRX"]%string.

(** formatter.py:105-108 *)
Definition format_shift (type : srtype) (amount : Z) : res (option string) :=
  if sr_eqb type SR_None then Ok None else
  match nth_error OP_NAMES (Z.to_nat (sr_value type)) with
  | Some name => Ok (Some (name ++ " #" ++ fmt_d amount)%string)
  | None => Err IndexError
  end.

(** formatter.py:114-118 *)
Definition format_barrier (option : Z) : string :=
  if option =? 15 then "sy" else ("#" ++ fmt_d option)%string.

(** formatter.py:142-148 *)
Definition format_cps (affectPri affectFault : bool) : string :=
  ((if affectPri then "i" else "") ++ (if affectFault then "f" else ""))%string.

(** [x == "..."] on a bitstring that is not looked at again *)
Definition bits_are (b : bs) (s : string) : res bool := let* '(_, r) := bs_eq b (VStr s) in Ok r.

(** [if x == s1: return r1 elif ...], with the last value as default *)
Fixpoint choose (b : bs) (l : list (string * string)) (default : string) : res string :=
  match l with
  | [] => Ok default
  | (s, r) :: l' => let* q := bits_are b s in if q then Ok r else choose b l' default
  end.

(** formatter.py:174-180: the suffix for the mask object, and the object afterwards *)
Definition format_mask (lower : bs) (mask : option bs) : res (option bs * string) :=
  let* '(_, low) := bs_lt lower (VInt 4) in
  if negb low then Ok (mask, EmptyString) else
  match mask with
  | None => Ok (mask, EmptyString)      (* -1 != -1 *)
  | Some m =>
    let* '(m', differs) := bs_ne m (VInt (-1)) in
    if differs then
      let* s := choose m' [("10", "_nzcvq"); ("01", "_g"); ("11", "_nzcvqg")]%string EmptyString in
      Ok (Some m', s)
    else Ok (Some m', EmptyString)
  end.

(** formatter.py:155-197 *)
Definition format_special (spec : bs) (mask : option bs) : res (option bs * string) :=
  let* upper := bs_getitem spec (KSlice (sl 3 8)) in
  let* lower := bs_getitem spec (KSlice (sl 0 3)) in
  let* q0 := bits_are upper "00000" in
  if q0 then
    let* result := choose lower [("000", "APSR"); ("001", "IAPSR"); ("010", "EAPSR"); ("011", "XPSR");
      ("101", "IPSR"); ("110", "EPSR"); ("111", "IEPSR")]%string EmptyString in
    let* '(mask', suffix) := format_mask lower mask in
    Ok (mask', (result ++ suffix)%string)
  else
  let* q1 := bits_are upper "00001" in
  if q1 then
    let* result := choose lower [("000", "MSP"); ("001", "PSP")]%string EmptyString in Ok (mask, result)
  else
  let* q2 := bits_are upper "00010" in
  if q2 then
    let* result := choose lower [("000", "PRIMASK"); ("001", "BASEPRI"); ("010", "BASEPRI_MAX");
      ("011", "FAULTMASK"); ("100", "CONTROL")]%string EmptyString in Ok (mask, result)
  else Ok (mask, EmptyString).

(** [o.format(formatter)]: the operand object afterwards, the formatter afterwards and
    the text; [None] is Python's None.  The [imm32] of the current instruction is what
    an [ImmRefOp] holds. *)
Fixpoint format_operand (f : formatter) (o : operand) : res (operand * formatter * option string) :=
  match o with
  | RegOp reg wback => let* s := format_register reg wback in Ok (o, f, Some s)
  | ReglistOp l => let* s := format_reglist l in Ok (o, f, Some s)
  | ImmOp imm hide => let '(f', s) := format_immediate f imm hide in Ok (o, f', s)
  | ImmRefOp =>
    match f_instruction f with
    | Some i =>
      match a_imm32 (i_attrs i) with
      | Some b => let* '(f', s) := format_immediate_bits f b in Ok (o, f', s)
      | None => Err AttributeError
      end
    | None => Err AttributeError
    end
  | LabelOp offset => let* '(f', s) := format_label f offset in Ok (o, f', s)
  | ShiftRotateOp type amount => let* s := format_shift type amount in Ok (o, f, s)
  | BarrierOp option => Ok (o, f, Some (format_barrier option))
  | MemOp operands =>       (* formatter.py:125-135; wback is never passed *)
    let fix go (f : formatter) (l : list operand) : res (list operand * formatter * list string) :=
      match l with
      | [] => Ok ([], f, [])
      | x :: l' =>
        let* '(x', f', s) := format_operand f x in
        let* '(l'', f'', ss) := go f' l' in
        Ok (x' :: l'', f'', match s with Some t => t :: ss | None => ss end)
      end in
    let* '(l, f', ss) := go f operands in
    Ok (MemOp l, f', Some ("[" ++ join ", " ss ++ "]")%string)
  | CpsOp pri fault => Ok (o, f, Some (format_cps pri fault))
  | SpecialOp spec mask =>
    let* '(mask', s) := format_special spec mask in Ok (SpecialOp spec mask', f, Some s)
  end.

(** formatter.py:219-223 *)
Fixpoint format_operands (f : formatter) (l : list operand) : res (list operand * formatter * list string) :=
  match l with
  | [] => Ok ([], f, [])
  | x :: l' =>
    let* '(x', f', s) := format_operand f x in
    let* '(l'', f'', ss) := format_operands f' l' in
    Ok (x' :: l'', f'', match s with Some t => t :: ss | None => ss end)
  end.

(** formatter.py:209-214 *)
Definition byte_string (b : list Z) : res string :=
  let* hw1 := bytes_to_le16 b 0 in
  let byteString := fmt_0x 4 hw1 in
  if Z.of_nat (List.length b) =? 4 then
    let* hw2 := bytes_to_le16 b 2 in Ok (byteString ++ " " ++ fmt_0x 4 hw2)%string
  else Ok byteString.

(** formatter.py:205-233: the instruction object and the formatter afterwards, and the
    text.  An exception while an operand is formatted leaves the formatter with the
    comments so far, which the next call discards (line 207); the model does not keep
    track of them. *)
Definition format (f : formatter) (i : insn) : res (insn * formatter * string) :=
  let f := mkfmt (Some i) [] in
  let* bs := byte_string (i_bytes i) in
  let result := (pad_right 12 bs ++ " " ++ pad_right 8 (i_mnemonic i))%string in
  let* '(ops, f, formatted) := format_operands f (i_operands i) in
  let result := (result ++ join ", " formatted)%string in
  let result := match f_comments f with
                | [] => result
                | _ => (pad_right 36 result ++ " ; " ++ join " " (f_comments f))%string
                end in
  Ok (set_operands ops i, mkfmt None (f_comments f), result).
