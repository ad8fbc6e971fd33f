(** * Model of the instruction set of /repo/cmdis/instructions.py: decode handlers
    and the list of registered encodings.

    A handler is its parameter names (without [i]) and its body as a function of
    the arguments in that order.  An exception discards the instruction object,
    so a body returns the finished object or the exception. *)
From Verif Require Export DecoderModel.
Local Open Scope string_scope.
Local Open Scope list_scope.
Local Open Scope Z_scope.

(** One tag per handler function, in source order. *)
Inductive hid :=
| H_adc | H_add_imm_t1 | H_add_imm_t2 | H_add_reg_t1 | H_add_reg_t2 | H_add_sp_plus_imm_t1
| H_add_sp_plus_reg_t1 | H_add_sp_plus_reg_t2 | H_add_sp_plus_imm_t2 | H_shift_imm_t1
| H_rsb | H_rsb_w | H_mul_t1 | H_mul_t2 | H_adr_t1 | H_adr_t2 | H_extend | H_extend2
| H_rev | H_rev_w | H_mov_reg | H_movs_reg | H_mov_reg_t3 | H_mov1 | H_mov2 | H_movw | H_mvn | H_mvnw
| H_cmp1 | H_cmp3 | H_cmp4 | H_cmp2 | H_tst | H_tst_w
| H_b_t1 | H_b_t2 | H_bl_t1 | H_blx_t1 | H_bx_t1
| H_ldr_str_reg | H_ldr_str_reg_t2 | H_ldr_str_imm | H_ldr_literal | H_ldr_literal_w | H_ldr_str_imm_t2
| H_push_t1 | H_push_t2 | H_push_t3 | H_pop_t1 | H_pop_t2 | H_pop_t3
| H_stm_ldm_t1 | H_stm_t2 | H_ldm_t2
| H_cps | H_bkpt | H_mrs | H_msr | H_nop | H_barrier | H_udf_t1 | H_udf_t2.

Definition handler := (list string * (pyver -> insn -> list bs -> res insn))%type.

(** Attribute assignments [i.x = v]. *)
Definition set_d (v : Z) := set_attrs (with_d v).
Definition set_n (v : Z) := set_attrs (with_n v).
Definition set_m (v : Z) := set_attrs (with_m v).
Definition set_t (v : Z) := set_attrs (with_t v).
Definition set_imm32 (v : bs) := set_attrs (with_imm32 v).
Definition set_setflags (v : setflags) := set_attrs (with_setflags v).
Definition set_shift_t (v : srtype) := set_attrs (with_shift_t v).
Definition set_shift_n (v : Z) := set_attrs (with_shift_n v).
Definition set_rotation (v : Z) := set_attrs (with_rotation v).
Definition set_with_link (v : bool) := set_attrs (with_with_link v).
Definition set_cond (v : Z) := set_attrs (with_cond v).
Definition set_pc_delta (v : Z) := set_attrs (with_pc_delta v).
Definition set_index (v : bool) := set_attrs (with_index v).
Definition set_add (v : bool) := set_attrs (with_add v).
Definition set_wback (v : bool) := set_attrs (with_wback v).
Definition set_registers (v : bs) := set_attrs (with_registers v).
Definition set_enable (v : bool) := set_attrs (with_enable v).
Definition set_affectPri (v : bool) := set_attrs (with_affectPri v).
Definition set_affectFault (v : bool) := set_attrs (with_affectFault v).
Definition set_SYSm (v : bs) := set_attrs (with_SYSm v).

(** [x in (13, 15)] *)
Definition in_13_15 (x : Z) : bool := ((x =? 13) || (x =? 15))%bool.
(** Reading an attribute *)
Definition attr {A} (o : option A) : res A := match o with Some v => Ok v | None => Err AttributeError end.
(** [RegisterOperand(r)] *)
Definition reg_op (r : Z) : operand := RegOp r false.
(** [b % "..."] and chains of it *)
Definition cat_str (b : bs) (s : string) : res bs := bs_mod b (VStr s).
Definition cat (a b : bs) : res bs := bs_mod a (VBits b).
(** [i._mnemonic += s] *)
Definition add_mnemonic (s : string) (i : insn) : insn := set_mnemonic (i_mnemonic i ++ s)%string i.
(** [(SetFlags.Never, SetFlags.Always)[k]] for k in 0, 1 *)
Definition never_always (k : Z) : res setflags :=
  if k =? 0 then Ok Never else if k =? 1 then Ok Always else Err IndexError.

(** instructions.py:532-549, the mnemonics of [CONDITIONS] *)
Definition cond_mnemonic (c : Z) : res string :=
  match c with
  | 0 => Ok "eq" | 1 => Ok "ne" | 2 => Ok "cs" | 3 => Ok "cc" | 4 => Ok "mi" | 5 => Ok "pl"
  | 6 => Ok "vs" | 7 => Ok "vc" | 8 => Ok "hi" | 9 => Ok "ls" | 10 => Ok "ge" | 11 => Ok "lt"
  | 12 => Ok "gt" | 13 => Ok "le" | 14 => Ok "" | 15 => Ok ""
  | _ => Err KeyError
  end.

(** The SYSm values of instructions.py:973, 984 *)
Definition sysm_ok (v : Z) : bool := existsb (Z.eqb v) [0;1;2;3;5;6;7;8;9;16;17;18;19;20].

(** instructions.py:115-121 *)
Definition h_adc : handler := (["Rm"; "Rdn"], fun py i a => match a with
  | [Rm; Rdn] =>
    let d := bs_unsigned Rdn in let m := bs_unsigned Rm in
    let i := set_d d i in let i := set_n (bs_unsigned Rdn) i in let i := set_m m i in
    let i := set_setflags NotInITBlock i in
    Ok (set_operands [reg_op d; reg_op m] i)
  | _ => Err TypeError end).

(** instructions.py:125-130 *)
Definition h_add_imm_t1 : handler := (["imm3"; "Rn"; "Rd"], fun py i a => match a with
  | [imm3; Rn; Rd] =>
    let d := bs_unsigned Rd in let n := bs_unsigned Rn in
    let i := set_d d i in let i := set_n n i in let i := set_setflags NotInITBlock i in
    let* imm32 := bs_zero_extend imm3 32 in
    let i := set_imm32 imm32 i in
    Ok (set_operands [reg_op d; reg_op n; ImmRefOp] i)
  | _ => Err TypeError end).

(** instructions.py:134-139 *)
Definition h_add_imm_t2 : handler := (["Rdn"; "imm8"], fun py i a => match a with
  | [Rdn; imm8] =>
    let d := bs_unsigned Rdn in
    let i := set_d d i in let i := set_n (bs_unsigned Rdn) i in let i := set_setflags NotInITBlock i in
    let* imm32 := bs_zero_extend imm8 32 in
    let i := set_imm32 imm32 i in
    Ok (set_operands [reg_op d; ImmRefOp] i)
  | _ => Err TypeError end).

(** instructions.py:143-148 *)
Definition h_add_reg_t1 : handler := (["Rm"; "Rn"; "Rd"], fun py i a => match a with
  | [Rm; Rn; Rd] =>
    let d := bs_unsigned Rd in let n := bs_unsigned Rn in let m := bs_unsigned Rm in
    let i := set_d d i in let i := set_n n i in let i := set_m m i in
    let i := set_setflags NotInITBlock i in
    Ok (set_operands [reg_op d; reg_op n; reg_op m] i)
  | _ => Err TypeError end).

(** instructions.py:151-155 *)
Definition h_add_reg_t2 : handler := (["DN"; "Rm"; "Rdn"], fun py i a => match a with
  | [DN; Rm; Rdn] =>
    let* c := cat DN Rdn in
    let d := bs_unsigned c in let m := bs_unsigned Rm in
    let i := set_d d i in let i := set_n d i in let i := set_m m i in
    Ok (set_operands [reg_op d; reg_op m] i)
  | _ => Err TypeError end).

(** instructions.py:158-162 *)
Definition h_add_sp_plus_imm_t1 : handler := (["Rd"; "imm8"], fun py i a => match a with
  | [Rd; imm8] =>
    let d := bs_unsigned Rd in
    let i := set_d d i in let i := set_n 13 i in
    let* c := cat_str imm8 "00" in let* imm32 := bs_zero_extend c 32 in
    let i := set_imm32 imm32 i in
    Ok (set_operands [reg_op d; reg_op 13; ImmOp (bs_unsigned imm32) false] i)
  | _ => Err TypeError end).

(** instructions.py:165-170 *)
Definition h_add_sp_plus_reg_t1 : handler := (["DM"; "Rdm"], fun py i a => match a with
  | [DM; Rdm] =>
    let* c := cat DM Rdm in
    let d := bs_unsigned c in
    let* c' := cat DM Rdm in
    let m := bs_unsigned c' in
    let i := set_d d i in let i := set_n 13 i in let i := set_m m i in
    let i := set_setflags Never i in
    Ok (set_operands [reg_op d; reg_op 13; reg_op m] i)
  | _ => Err TypeError end).

(** instructions.py:173-180 *)
Definition h_add_sp_plus_reg_t2 : handler := (["Rm"], fun py i a => match a with
  | [Rm] =>
    let* e := eq_text Rm "1101" in
    if e then Err DecodeError else
    let m := bs_unsigned Rm in
    let i := set_d 13 i in let i := set_n 13 i in let i := set_m m i in
    let i := set_setflags Never i in
    Ok (set_operands [reg_op 13; reg_op m] i)
  | _ => Err TypeError end).

(** instructions.py:184-188 *)
Definition h_add_sp_plus_imm_t2 : handler := (["imm7"], fun py i a => match a with
  | [imm7] =>
    let i := set_d 13 i in let i := set_n 13 i in
    let* c := cat_str imm7 "00" in let* imm32 := bs_zero_extend c 32 in
    let i := set_imm32 imm32 i in
    Ok (set_operands [reg_op 13; ImmOp (bs_unsigned imm32) false] i)
  | _ => Err TypeError end).

(** instructions.py:193-198 *)
Definition h_shift_imm_t1 : handler := (["stype"; "imm5"; "Rm"; "Rd"], fun py i a => match a with
  | [stype; imm5; Rm; Rd] =>
    let d := bs_unsigned Rd in let n := bs_unsigned Rm in
    let i := set_d d i in let i := set_n n i in
    let* '(_, shift_n) := DecodeImmShift stype imm5 in
    let i := set_shift_n shift_n i in
    let i := set_setflags NotInITBlock i in
    Ok (set_operands [reg_op d; reg_op n; ImmOp shift_n false] i)
  | _ => Err TypeError end).

(** instructions.py:210-215 *)
Definition h_rsb : handler := (["Rn"; "Rd"], fun py i a => match a with
  | [Rn; Rd] =>
    let d := bs_unsigned Rd in let n := bs_unsigned Rn in
    let i := set_d d i in let i := set_n n i in let i := set_setflags NotInITBlock i in
    let* imm32 := zeros 32 in
    let i := set_imm32 imm32 i in
    Ok (set_operands [reg_op d; reg_op n; ImmOp (bs_unsigned imm32) false] i)
  | _ => Err TypeError end).

(** instructions.py:218-226 *)
Definition h_rsb_w : handler := (["im"; "S"; "Rn"; "imm3"; "Rd"; "imm8"], fun py i a => match a with
  | [im; S_; Rn; imm3; Rd; imm8] =>
    let d := bs_unsigned Rd in let n := bs_unsigned Rn in
    let i := set_d d i in let i := set_n n i in
    if (in_13_15 d || in_13_15 n)%bool then Err UnpredictableError else
    let* s := eq_text S_ "1" in
    let i := set_setflags (if s then Always else Never) i in
    let i := add_mnemonic (if s then "s.w" else ".w") i in
    let* c := cat im imm3 in let* c := cat c imm8 in
    let* imm32 := ThumbExpandImm c in
    let i := set_imm32 imm32 i in
    Ok (set_operands [reg_op d; reg_op n; ImmOp (bs_unsigned imm32) false] i)
  | _ => Err TypeError end).

(** instructions.py:240-245 *)
Definition h_mul_t1 : handler := (["Rn"; "Rdm"], fun py i a => match a with
  | [Rn; Rdm] =>
    let d := bs_unsigned Rdm in let n := bs_unsigned Rn in let m := bs_unsigned Rdm in
    let i := set_d d i in let i := set_n n i in let i := set_m m i in
    let i := set_setflags NotInITBlock i in
    Ok (set_operands [reg_op d; reg_op n; reg_op m] i)
  | _ => Err TypeError end).

(** instructions.py:248-255 *)
Definition h_mul_t2 : handler := (["Rn"; "Rd"; "Rm"], fun py i a => match a with
  | [Rn; Rd; Rm] =>
    let d := bs_unsigned Rd in let n := bs_unsigned Rn in let m := bs_unsigned Rm in
    let i := set_d d i in let i := set_n n i in let i := set_m m i in
    let i := set_setflags Never i in
    if (in_13_15 d || in_13_15 n || in_13_15 m)%bool then Err UnpredictableError else
    Ok (set_operands [reg_op d; reg_op n; reg_op m] i)
  | _ => Err TypeError end).

(** instructions.py:266-270 *)
Definition h_adr_t1 : handler := (["Rd"; "imm8"], fun py i a => match a with
  | [Rd; imm8] =>
    let d := bs_unsigned Rd in
    let i := set_d d i in
    let* c := cat_str imm8 "00" in let* imm32 := bs_zero_extend c 32 in
    let i := set_imm32 imm32 i in
    let i := set_add true i in
    Ok (set_operands [reg_op d; LabelOp (bs_unsigned imm32)] i)
  | _ => Err TypeError end).

(** instructions.py:274-277 *)
Definition h_adr_t2 : handler := (["im"; "imm3"; "Rd"; "imm8"], fun py i a => match a with
  | [im; imm3; Rd; imm8] =>
    let d := bs_unsigned Rd in
    let i := set_d d i in
    let* c := cat im imm3 in let* c := cat c imm8 in let* imm32 := bs_zero_extend c 32 in
    let i := set_imm32 imm32 i in
    Ok (set_operands [reg_op d; LabelOp (bs_unsigned imm32)] i)
  | _ => Err TypeError end).

(** instructions.py:295-299 *)
Definition h_extend : handler := (["Rm"; "Rd"], fun py i a => match a with
  | [Rm; Rd] =>
    let m := bs_unsigned Rm in let d := bs_unsigned Rd in
    let i := set_m m i in let i := set_d d i in let i := set_rotation 0 i in
    Ok (set_operands [reg_op d; reg_op m] i)
  | _ => Err TypeError end).

(** instructions.py:305-311 *)
Definition h_extend2 : handler := (["Rm"; "rotate"; "Rd"], fun py i a => match a with
  | [Rm; rotate; Rd] =>
    let m := bs_unsigned Rm in let d := bs_unsigned Rd in
    let i := set_m m i in let i := set_d d i in
    let* rotation := py_nth [0; 8; 16; 24] (bs_unsigned rotate) in
    let i := set_rotation rotation i in
    Ok (set_operands ([reg_op d; reg_op m] ++
          (if negb (rotation =? 0) then [ShiftRotateOp SR_ROR rotation] else [])) i)
  | _ => Err TypeError end).

(** instructions.py:338-341 *)
Definition h_rev : handler := (["Rm"; "Rd"], fun py i a => match a with
  | [Rm; Rd] =>
    let m := bs_unsigned Rm in let d := bs_unsigned Rd in
    let i := set_m m i in let i := set_d d i in
    Ok (set_operands [reg_op d; reg_op m] i)
  | _ => Err TypeError end).

(** instructions.py:346-351 *)
Definition h_rev_w : handler := (["Rm1"; "Rd"; "Rm2"], fun py i a => match a with
  | [Rm1; Rd; Rm2] =>
    let* '(_, ne) := bs_ne Rm1 (VBits Rm2) in
    if ne then Err UnpredictableError else
    let m := bs_unsigned Rm1 in let d := bs_unsigned Rd in
    let i := set_m m i in let i := set_d d i in
    Ok (set_operands [reg_op d; reg_op m] i)
  | _ => Err TypeError end).

(** instructions.py:374-378 *)
Definition h_mov_reg : handler := (["D"; "Rm"; "Rd"], fun py i a => match a with
  | [D; Rm; Rd] =>
    let m := bs_unsigned Rm in
    let i := set_m m i in
    let* c := cat D Rd in let d := bs_unsigned c in
    let i := set_d d i in let i := set_setflags Never i in
    Ok (set_operands [reg_op d; reg_op m] i)
  | _ => Err TypeError end).

(** instructions.py:381-385 *)
Definition h_movs_reg : handler := (["Rm"; "Rd"], fun py i a => match a with
  | [Rm; Rd] =>
    let m := bs_unsigned Rm in let d := bs_unsigned Rd in
    let i := set_m m i in let i := set_d d i in let i := set_setflags Always i in
    Ok (set_operands [reg_op d; reg_op m] i)
  | _ => Err TypeError end).

(** instructions.py:388-393; [if S] is the truth value of a bitstring *)
Definition h_mov_reg_t3 : handler := (["S"; "Rd"; "Rm"], fun py i a => match a with
  | [S_; Rd; Rm] =>
    let i := add_mnemonic (if bs_truthy py S_ then "s.w" else ".w") i in
    let d := bs_unsigned Rd in let m := bs_unsigned Rm in
    let i := set_d d i in let i := set_m m i in
    let* sf := never_always (bs_unsigned S_) in
    let i := set_setflags sf i in
    Ok (set_operands [reg_op d; reg_op m] i)
  | _ => Err TypeError end).

(** instructions.py:396-400 *)
Definition h_mov1 : handler := (["Rd"; "imm8"], fun py i a => match a with
  | [Rd; imm8] =>
    let d := bs_unsigned Rd in
    let i := set_d d i in let i := set_setflags NotInITBlock i in
    let* imm32 := bs_zero_extend imm8 32 in
    let i := set_imm32 imm32 i in
    Ok (set_operands [reg_op d; ImmOp (bs_unsigned imm32) false] i)
  | _ => Err TypeError end).

(** instructions.py:404-409 *)
Definition h_mov2 : handler := (["im"; "S"; "imm3"; "Rd"; "imm8"], fun py i a => match a with
  | [im; S_; imm3; Rd; imm8] =>
    let i := add_mnemonic (if bs_truthy py S_ then "s.w" else ".w") i in
    let d := bs_unsigned Rd in
    let i := set_d d i in
    let* sf := never_always (bs_unsigned S_) in
    let i := set_setflags sf i in
    let* c := cat im imm3 in let* c := cat c imm8 in
    let* '(imm32, _) := ThumbExpandImm_C c bit0 in
    let i := set_imm32 imm32 i in
    Ok (set_operands [reg_op d; ImmOp (bs_unsigned imm32) false] i)
  | _ => Err TypeError end).

(** instructions.py:413-417 *)
Definition h_movw : handler := (["im"; "imm4"; "imm3"; "Rd"; "imm8"], fun py i a => match a with
  | [im; imm4; imm3; Rd; imm8] =>
    let d := bs_unsigned Rd in
    let i := set_d d i in let i := set_setflags Never i in
    let* c := cat imm4 im in let* c := cat c imm3 in let* c := cat c imm8 in
    let* imm32 := bs_zero_extend c 32 in
    let i := set_imm32 imm32 i in
    Ok (set_operands [reg_op d; ImmOp (bs_unsigned imm32) false] i)
  | _ => Err TypeError end).

(** instructions.py:421-425 *)
Definition h_mvn : handler := (["Rm"; "Rd"], fun py i a => match a with
  | [Rm; Rd] =>
    let d := bs_unsigned Rd in let m := bs_unsigned Rm in
    let i := set_d d i in let i := set_m m i in let i := set_setflags NotInITBlock i in
    Ok (set_operands [reg_op d; reg_op m] i)
  | _ => Err TypeError end).

(** instructions.py:437-443 *)
Definition h_mvnw : handler := (["S"; "imm3"; "Rd"; "imm2"; "type"; "Rm"], fun py i a => match a with
  | [S_; imm3; Rd; imm2; type; Rm] =>
    let i := add_mnemonic (if bs_truthy py S_ then "s.w" else ".w") i in
    let d := bs_unsigned Rd in let m := bs_unsigned Rm in
    let i := set_d d i in let i := set_m m i in
    let* sf := never_always (bs_unsigned S_) in
    let i := set_setflags sf i in
    let* c := cat imm3 imm2 in
    let* '(shift_t, shift_n) := DecodeImmShift type c in
    let i := set_shift_t shift_t i in let i := set_shift_n shift_n i in
    Ok (set_operands [reg_op d; reg_op m; ShiftRotateOp shift_t shift_n] i)
  | _ => Err TypeError end).

(** instructions.py:470-473 *)
Definition h_cmp1 : handler := (["Rn"; "imm8"], fun py i a => match a with
  | [Rn; imm8] =>
    let n := bs_unsigned Rn in
    let i := set_n n i in
    let* imm32 := bs_zero_extend imm8 32 in
    let i := set_imm32 imm32 i in
    Ok (set_operands [reg_op n; ImmOp (bs_unsigned imm32) false] i)
  | _ => Err TypeError end).

(** instructions.py:478-481; line 480 reads Rn *)
Definition h_cmp3 : handler := (["Rm"; "Rn"], fun py i a => match a with
  | [Rm; Rn] =>
    let n := bs_unsigned Rn in let m := bs_unsigned Rn in
    let i := set_n n i in let i := set_m m i in
    Ok (set_operands [reg_op n; reg_op m] i)
  | _ => Err TypeError end).

(** instructions.py:485-488; line 487 reads Rn *)
Definition h_cmp4 : handler := (["N"; "Rm"; "Rn"], fun py i a => match a with
  | [N; Rm; Rn] =>
    let* c := cat N Rn in
    let n := bs_unsigned c in let m := bs_unsigned Rn in
    let i := set_n n i in let i := set_m m i in
    Ok (set_operands [reg_op n; reg_op m] i)
  | _ => Err TypeError end).

(** instructions.py:493-496 *)
Definition h_cmp2 : handler := (["im"; "Rn"; "imm3"; "imm8"], fun py i a => match a with
  | [im; Rn; imm3; imm8] =>
    let n := bs_unsigned Rn in
    let i := set_n n i in
    let* c := cat im imm3 in let* c := cat c imm8 in
    let* imm32 := ThumbExpandImm c in
    let i := set_imm32 imm32 i in
    Ok (set_operands [reg_op n; ImmOp (bs_unsigned imm32) false] i)
  | _ => Err TypeError end).

(** instructions.py:510-515 *)
Definition h_tst : handler := (["Rm"; "Rn"], fun py i a => match a with
  | [Rm; Rn] =>
    let n := bs_unsigned Rn in let m := bs_unsigned Rm in
    let i := set_n n i in let i := set_m m i in
    let i := set_shift_t SR_None i in let i := set_shift_n 0 i in
    Ok (set_operands [reg_op n; reg_op m] i)
  | _ => Err TypeError end).

(** instructions.py:518-526 *)
Definition h_tst_w : handler := (["Rn"; "imm3"; "imm2"; "type"; "Rm"], fun py i a => match a with
  | [Rn; imm3; imm2; type; Rm] =>
    let n := bs_unsigned Rn in let m := bs_unsigned Rm in
    let i := set_n n i in let i := set_m m i in
    let* c := cat imm3 imm2 in
    let* '(shift_t, shift_n) := DecodeImmShift type c in
    let i := set_shift_t shift_t i in let i := set_shift_n shift_n i in
    if (in_13_15 n || in_13_15 m)%bool then Err UnpredictableError else
    Ok (set_operands ([reg_op n; reg_op m] ++
          (if negb (shift_n =? 0) then [ShiftRotateOp shift_t shift_n] else [])) i)
  | _ => Err TypeError end).

(** [LabelOperand(i.imm32.signed)]: reading [signed] changes a negative [imm32] *)
Definition label_of_imm32 (imm32 : bs) (i : insn) : res insn :=
  let* '(imm32', off) := bs_signed imm32 in
  Ok (set_operands [LabelOp off] (set_imm32 imm32' i)).

(** instructions.py:577-581 *)
Definition h_b_t1 : handler := (["cond"; "imm8"], fun py i a => match a with
  | [cond; imm8] =>
    let* s := cond_mnemonic (bs_unsigned cond) in
    let i := set_cond (bs_unsigned cond) i in
    let i := set_mnemonic ("b" ++ s)%string i in
    let* c := cat_str imm8 "0" in let* imm32 := bs_sign_extend c 32 in
    label_of_imm32 imm32 i
  | _ => Err TypeError end).

(** instructions.py:585-588 *)
Definition h_b_t2 : handler := (["imm11"], fun py i a => match a with
  | [imm11] =>
    let* c := cat_str imm11 "0" in let* imm32 := bs_sign_extend c 32 in
    label_of_imm32 imm32 i
  | _ => Err TypeError end).

(** instructions.py:591-596 *)
Definition h_bl_t1 : handler := (["S"; "imm10"; "J1"; "J2"; "imm11"], fun py i a => match a with
  | [S_; imm10; J1; J2; imm11] =>
    let* x1 := bs_xor J1 (VBits S_) in let* I1 := bs_invert x1 in
    let* x2 := bs_xor J2 (VBits S_) in let* I2 := bs_invert x2 in
    let* c := cat S_ I1 in let* c := cat c I2 in let* c := cat c imm10 in let* c := cat c imm11 in
    let* c := cat_str c "0" in let* imm32 := bs_sign_extend c 32 in
    let i := set_with_link true i in
    label_of_imm32 imm32 i
  | _ => Err TypeError end).

(** instructions.py:599-604 *)
Definition h_blx_t1 : handler := (["Rm"], fun py i a => match a with
  | [Rm] =>
    let m := bs_unsigned Rm in
    let i := set_m m i in let i := set_with_link true i in let i := set_pc_delta (-2) i in
    Ok (set_operands [reg_op m] i)
  | _ => Err TypeError end).

(** instructions.py:607-609 *)
Definition h_bx_t1 : handler := (["Rm"], fun py i a => match a with
  | [Rm] =>
    let m := bs_unsigned Rm in
    Ok (set_operands [reg_op m] (set_m m i))
  | _ => Err TypeError end).

(** instructions.py:660-669 *)
Definition h_ldr_str_reg : handler := (["Rm"; "Rn"; "Rt"], fun py i a => match a with
  | [Rm; Rn; Rt] =>
    let t := bs_unsigned Rt in let n := bs_unsigned Rn in let m := bs_unsigned Rm in
    let i := set_t t i in let i := set_n n i in let i := set_m m i in
    let i := set_index true i in let i := set_add true i in let i := set_wback false i in
    let i := set_shift_t SR_None i in let i := set_shift_n 0 i in
    Ok (set_operands [reg_op t; MemOp [reg_op n; reg_op m]] i)
  | _ => Err TypeError end).

(** instructions.py:679-691 *)
Definition h_ldr_str_reg_t2 : handler := (["Rn"; "Rt"; "imm2"; "Rm"], fun py i a => match a with
  | [Rn; Rt; imm2; Rm] =>
    let t := bs_unsigned Rt in let n := bs_unsigned Rn in let m := bs_unsigned Rm in
    let i := set_t t i in let i := set_n n i in let i := set_m m i in
    if n =? 15 then Err DecodeError else
    let i := set_index true i in let i := set_add true i in let i := set_wback false i in
    let i := set_shift_t SR_LSL i in let i := set_shift_n (bs_unsigned imm2) i in
    Ok (set_operands [reg_op t; MemOp [reg_op n; reg_op m; ShiftRotateOp SR_LSL (bs_unsigned imm2)]] i)
  | _ => Err TypeError end).

(** instructions.py:699-711 *)
Definition h_ldr_str_imm : handler := (["imm5"; "Rn"; "Rt"], fun py i a => match a with
  | [imm5; Rn; Rt] =>
    let t := bs_unsigned Rt in let n := bs_unsigned Rn in
    let i := set_t t i in let i := set_n n i in
    let* memsize := attr (a_memsize (i_attrs i)) in
    let* imm5 := if memsize =? 32 then cat_str imm5 "00"
                 else if memsize =? 16 then cat_str imm5 "0" else Ok imm5 in
    let* imm32 := bs_zero_extend imm5 32 in
    let i := set_imm32 imm32 i in
    let i := set_index true i in let i := set_add true i in let i := set_wback false i in
    Ok (set_operands [reg_op t; MemOp [reg_op n; ImmOp (bs_unsigned imm32) true]] i)
  | _ => Err TypeError end).

(** instructions.py:730-734 *)
Definition h_ldr_literal : handler := (["Rt"; "imm8"], fun py i a => match a with
  | [Rt; imm8] =>
    let t := bs_unsigned Rt in
    let i := set_t t i in
    let* c := cat_str imm8 "00" in let* imm32 := bs_zero_extend c 32 in
    let i := set_imm32 imm32 i in
    Ok (set_operands [reg_op t; MemOp [reg_op 15; ImmOp (bs_unsigned imm32) false]] i)
  | _ => Err TypeError end).

(** instructions.py:741-749 *)
Definition h_ldr_literal_w : handler := (["U"; "Rt"; "imm12"], fun py i a => match a with
  | [U; Rt; imm12] =>
    let t := bs_unsigned Rt in
    let i := set_t t i in
    if t =? 15 then Err DecodeError else
    let* imm32 := bs_zero_extend imm12 32 in
    let i := set_imm32 imm32 i in
    let* add := eq_text U "1" in
    let i := set_add add i in
    Ok (set_operands [reg_op t; MemOp [reg_op 15;
          ImmOp (if add then bs_unsigned imm32 else - bs_unsigned imm32) true]] i)
  | _ => Err TypeError end).

(** instructions.py:753-761 *)
Definition h_ldr_str_imm_t2 : handler := (["Rt"; "imm8"], fun py i a => match a with
  | [Rt; imm8] =>
    let t := bs_unsigned Rt in
    let i := set_t t i in let i := set_n 13 i in
    let* c := cat_str imm8 "00" in let* imm32 := bs_zero_extend c 32 in
    let i := set_imm32 imm32 i in
    let i := set_index true i in let i := set_add true i in let i := set_wback false i in
    Ok (set_operands [reg_op t; MemOp [reg_op 13; ImmOp (bs_unsigned imm32) true]] i)
  | _ => Err TypeError end).

(** instructions.py:789-794 *)
Definition h_push_t1 : handler := (["M"; "reglist"], fun py i a => match a with
  | [M; reglist] =>
    let* c := cat bit0 M in let* c := cat_str c "000000" in let* registers := cat c reglist in
    let i := set_registers registers i in
    let* n := bs_bit_count registers in
    if n =? 0 then Err UnpredictableError else
    Ok (set_operands [ReglistOp registers] i)
  | _ => Err TypeError end).

(** instructions.py:797-802: line 798 uses the undefined name [reglsit] *)
Definition h_push_t2 : handler := (["M"; "reglist"], fun py i a => match a with
  | [M; reglist] => Err NameError
  | _ => Err TypeError end).

(** instructions.py:805-811 *)
Definition h_push_t3 : handler := (["Rt"], fun py i a => match a with
  | [Rt] =>
    let* z := zeros 16 in
    let* registers := bs_setitem z (KInt (bs_unsigned Rt)) (VInt 1) in
    let i := set_registers registers i in
    if in_13_15 (bs_unsigned Rt) then Err UnpredictableError else
    Ok (set_operands [ReglistOp registers] i)
  | _ => Err TypeError end).

(** instructions.py:814-818 *)
Definition h_pop_t1 : handler := (["P"; "reglist"], fun py i a => match a with
  | [P; reglist] =>
    let* c := cat_str P "0000000" in let* registers := cat c reglist in
    let i := set_registers registers i in
    let* n := bs_bit_count registers in
    if n =? 0 then Err UnpredictableError else
    Ok (set_operands [ReglistOp registers] i)
  | _ => Err TypeError end).

(** instructions.py:821-825 *)
Definition h_pop_t2 : handler := (["P"; "M"; "reglist"], fun py i a => match a with
  | [P; M; reglist] =>
    let* c := cat P M in let* c := cat_str c "0" in let* registers := cat c reglist in
    let i := set_registers registers i in
    let* n := bs_bit_count registers in
    let* p := eq_text P "1" in
    let* m := eq_text M "1" in
    if ((n <? 2) || (p && m))%bool then Err UnpredictableError else
    Ok (set_operands [ReglistOp registers] i)
  | _ => Err TypeError end).

(** instructions.py:828-831 *)
Definition h_pop_t3 : handler := (["Rt"], fun py i a => match a with
  | [Rt] =>
    let* z := zeros 16 in
    let* registers := bs_setitem z (KInt (bs_unsigned Rt)) (VInt 1) in
    let i := set_registers registers i in
    Ok (set_operands [ReglistOp registers] i)
  | _ => Err TypeError end).

(** [registers[n] == '0'] and [== '1'] *)
Definition reg_bit_is (registers : bs) (n : Z) (s : string) : res bool :=
  let* b := bs_getitem registers (KInt n) in eq_text b s.

(** instructions.py:865-871 *)
Definition h_stm_ldm_t1 : handler := (["Rn"; "reglist"], fun py i a => match a with
  | [Rn; reglist] =>
    let n := bs_unsigned Rn in
    let i := set_n n i in
    let* z := bs_init (VStr "00000000") None in
    let* registers := cat z reglist in
    let i := set_registers registers i in
    let* e := reg_bit_is registers n "0" in
    let wback := (String.eqb (i_mnemonic i) "stm" || e)%bool in
    let i := set_wback wback i in
    let* cnt := bs_bit_count registers in
    if cnt <? 1 then Err UnpredictableError else
    Ok (set_operands [RegOp n wback; ReglistOp registers] i)
  | _ => Err TypeError end).

(** instructions.py:874-882 *)
Definition h_stm_t2 : handler := (["W"; "Rn"; "M"; "reglist"], fun py i a => match a with
  | [W; Rn; M; reglist] =>
    let n := bs_unsigned Rn in
    let i := set_n n i in
    let* c := cat bit0 M in let* c := cat c bit0 in let* registers := cat c reglist in
    let i := set_registers registers i in
    let* wback := eq_text W "1" in
    let i := set_wback wback i in
    let* cnt := bs_bit_count registers in
    if ((n =? 15) || (cnt <? 2))%bool then Err UnpredictableError else
    let* e := reg_bit_is registers n "1" in
    if (wback && e)%bool then Err UnpredictableError else
    Ok (set_operands [RegOp n wback; ReglistOp registers] i)
  | _ => Err TypeError end).

(** instructions.py:885-895 *)
Definition h_ldm_t2 : handler := (["W"; "Rn"; "P"; "M"; "reglist"], fun py i a => match a with
  | [W; Rn; P; M; reglist] =>
    let* w1 := eq_text W "1" in
    let* n13 := eq_text Rn "1101" in
    if (w1 && n13)%bool then Err DecodeError else
    let n := bs_unsigned Rn in
    let i := set_n n i in
    let* c := cat P M in let* c := cat_str c "0" in let* registers := cat c reglist in
    let i := set_registers registers i in
    let i := set_wback w1 i in
    let* cnt := bs_bit_count registers in
    let* p := eq_text P "1" in
    let* m := eq_text M "1" in
    if ((n =? 15) || (cnt <? 2) || (p && m))%bool then Err UnpredictableError else
    let* e := reg_bit_is registers n "1" in
    if (w1 && e)%bool then Err UnpredictableError else
    Ok (set_operands [RegOp n w1; ReglistOp registers] i)
  | _ => Err TypeError end).

(** instructions.py:915-922 *)
Definition h_cps : handler := (["im"; "I"; "F"], fun py i a => match a with
  | [im; I_; F_] =>
    let* '(_, i0) := bs_eq I_ (VInt 0) in
    let* '(_, f0) := bs_eq F_ (VInt 0) in
    if (i0 && f0)%bool then Err UnpredictableError else
    let* enable := eq_text im "0" in
    let i := set_enable enable i in
    let i := add_mnemonic (if enable then "ie" else "id") i in
    let* pri := eq_text I_ "1" in
    let* fault := eq_text F_ "1" in
    let i := set_affectPri pri i in let i := set_affectFault fault i in
    Ok (set_operands [CpsOp pri fault] i)
  | _ => Err TypeError end).

(** instructions.py:925-927 *)
Definition h_bkpt : handler := (["imm8"], fun py i a => match a with
  | [imm8] =>
    let* imm32 := bs_zero_extend imm8 32 in
    Ok (set_operands [ImmOp (bs_unsigned imm32) false] (set_imm32 imm32 i))
  | _ => Err TypeError end).

(** instructions.py:970-975 *)
Definition h_mrs : handler := (["Rd"; "SYSm"], fun py i a => match a with
  | [Rd; SYSm] =>
    let d := bs_unsigned Rd in
    let i := set_d d i in let i := set_SYSm SYSm i in
    if (in_13_15 d || negb (sysm_ok (bs_unsigned SYSm)))%bool then Err UnpredictableError else
    Ok (set_operands [reg_op d; SpecialOp SYSm None] i)
  | _ => Err TypeError end).

(** instructions.py:978-986 *)
Definition h_msr : handler := (["Rn"; "mask"; "SYSm"], fun py i a => match a with
  | [Rn; mask; SYSm] =>
    let n := bs_unsigned Rn in
    let i := set_n n i in let i := set_SYSm SYSm i in
    let* m00 := eq_text mask "00" in
    let* '(_, ne10) := bs_ne mask (VStr "10") in
    let low := existsb (Z.eqb (bs_unsigned SYSm)) (py_range 4) in
    if (m00 || (ne10 && negb low))%bool then Err UnpredictableError else
    if (in_13_15 n || negb (sysm_ok (bs_unsigned SYSm)))%bool then Err UnpredictableError else
    Ok (set_operands [SpecialOp SYSm (Some mask); reg_op n] i)
  | _ => Err TypeError end).

(** instructions.py:995-996 *)
Definition h_nop : handler := ([], fun py i a => match a with [] => Ok i | _ => Err TypeError end).

(** instructions.py:1003-1004 *)
Definition h_barrier : handler := (["option"], fun py i a => match a with
  | [option] => Ok (set_operands [BarrierOp (bs_unsigned option)] i)
  | _ => Err TypeError end).

(** instructions.py:1011-1013 *)
Definition h_udf_t1 : handler := (["imm8"], fun py i a => match a with
  | [imm8] =>
    let* imm32 := bs_zero_extend imm8 32 in
    Ok (set_operands [ImmOp (bs_unsigned imm32) false] (set_imm32 imm32 i))
  | _ => Err TypeError end).

(** instructions.py:1016-1018 *)
Definition h_udf_t2 : handler := (["imm4"; "imm12"], fun py i a => match a with
  | [imm4; imm12] =>
    let* c := cat imm4 imm12 in let* imm32 := bs_zero_extend c 32 in
    Ok (set_operands [ImmOp (bs_unsigned imm32) false] (set_imm32 imm32 i))
  | _ => Err TypeError end).

Definition handler_of (h : hid) : handler :=
  match h with
  | H_adc => h_adc | H_add_imm_t1 => h_add_imm_t1 | H_add_imm_t2 => h_add_imm_t2
  | H_add_reg_t1 => h_add_reg_t1 | H_add_reg_t2 => h_add_reg_t2
  | H_add_sp_plus_imm_t1 => h_add_sp_plus_imm_t1 | H_add_sp_plus_reg_t1 => h_add_sp_plus_reg_t1
  | H_add_sp_plus_reg_t2 => h_add_sp_plus_reg_t2 | H_add_sp_plus_imm_t2 => h_add_sp_plus_imm_t2
  | H_shift_imm_t1 => h_shift_imm_t1 | H_rsb => h_rsb | H_rsb_w => h_rsb_w
  | H_mul_t1 => h_mul_t1 | H_mul_t2 => h_mul_t2 | H_adr_t1 => h_adr_t1 | H_adr_t2 => h_adr_t2
  | H_extend => h_extend | H_extend2 => h_extend2 | H_rev => h_rev | H_rev_w => h_rev_w
  | H_mov_reg => h_mov_reg | H_movs_reg => h_movs_reg | H_mov_reg_t3 => h_mov_reg_t3
  | H_mov1 => h_mov1 | H_mov2 => h_mov2 | H_movw => h_movw | H_mvn => h_mvn | H_mvnw => h_mvnw
  | H_cmp1 => h_cmp1 | H_cmp3 => h_cmp3 | H_cmp4 => h_cmp4 | H_cmp2 => h_cmp2
  | H_tst => h_tst | H_tst_w => h_tst_w
  | H_b_t1 => h_b_t1 | H_b_t2 => h_b_t2 | H_bl_t1 => h_bl_t1 | H_blx_t1 => h_blx_t1 | H_bx_t1 => h_bx_t1
  | H_ldr_str_reg => h_ldr_str_reg | H_ldr_str_reg_t2 => h_ldr_str_reg_t2 | H_ldr_str_imm => h_ldr_str_imm
  | H_ldr_literal => h_ldr_literal | H_ldr_literal_w => h_ldr_literal_w | H_ldr_str_imm_t2 => h_ldr_str_imm_t2
  | H_push_t1 => h_push_t1 | H_push_t2 => h_push_t2 | H_push_t3 => h_push_t3
  | H_pop_t1 => h_pop_t1 | H_pop_t2 => h_pop_t2 | H_pop_t3 => h_pop_t3
  | H_stm_ldm_t1 => h_stm_ldm_t1 | H_stm_t2 => h_stm_t2 | H_ldm_t2 => h_ldm_t2
  | H_cps => h_cps | H_bkpt => h_bkpt | H_mrs => h_mrs | H_msr => h_msr | H_nop => h_nop
  | H_barrier => h_barrier | H_udf_t1 => h_udf_t1 | H_udf_t2 => h_udf_t2
  end.

Fixpoint all_some {A} (l : list (option A)) : option (list A) :=
  match l with
  | [] => Some []
  | Some x :: l' => match all_some l' with Some r => Some (x :: r) | None => None end
  | None :: _ => None
  end.

(** [handler(i, **fields)]: TypeError unless the names are exactly the parameters. *)
Definition call_handler (py : pyver) (h : hid) (i : insn) (fs : list (string * bs)) : res insn :=
  let '(params, body) := handler_of h in
  match all_some (map (fun p => dict_get String.eqb p fs) params) with
  | Some args => if Nat.eqb (List.length fs) (List.length params) then body py i args else Err TypeError
  | None => Err TypeError
  end.

(** One [@instr(mnemonic, klass, spec, spec2, **kwargs)] on a handler *)
Definition entry := (hid * string * klass * string * option string * list kwarg)%type.
Definition e16 (h : hid) (mnemonic : string) (k : klass) (spec : string) (kw : list kwarg) : entry :=
  (h, mnemonic, k, spec, None, kw).
Definition e32 (h : hid) (mnemonic : string) (k : klass) (spec spec2 : string) (kw : list kwarg) : entry :=
  (h, mnemonic, k, spec, Some spec2, kw).

(** The registrations of instructions.py in the order in which they happen: the
    decorators stacked on one function apply from the bottom up. *)
Definition entries : list entry := [
  (* 105-114 *)
  e16 H_adc "bics" BitClear "010000 1110 Rm(3) Rdn(3)" [];
  e16 H_adc "orrs" BitOp    "010000 1100 Rm(3) Rdn(3)" [KwOp OpOr];
  e16 H_adc "rors" ShiftOp  "010000 0111 Rm(3) Rdn(3)" [KwType SR_ROR];
  e16 H_adc "sbcs" AddSub   "010000 0110 Rm(3) Rdn(3)" [KwSub true; KwUseCarry true];
  e16 H_adc "adcs" AddSub   "010000 0101 Rm(3) Rdn(3)" [KwUseCarry true];
  e16 H_adc "asrs" ShiftOp  "010000 0100 Rm(3) Rdn(3)" [KwType SR_ASR];
  e16 H_adc "lsrs" ShiftOp  "010000 0011 Rm(3) Rdn(3)" [KwType SR_LSR];
  e16 H_adc "lsls" ShiftOp  "010000 0010 Rm(3) Rdn(3)" [KwType SR_LSL];
  e16 H_adc "eors" BitOp    "010000 0001 Rm(3) Rdn(3)" [KwOp OpXor];
  e16 H_adc "ands" BitOp    "010000 0000 Rm(3) Rdn(3)" [KwOp OpAnd];
  (* 123-124 *)
  e16 H_add_imm_t1 "subs" AddSub "000 11 1 1 imm3(3) Rn(3) Rd(3)" [KwSub true];
  e16 H_add_imm_t1 "adds" AddSub "000 11 1 0 imm3(3) Rn(3) Rd(3)" [];
  (* 132-133 *)
  e16 H_add_imm_t2 "subs" AddSub "001 11 Rdn(3) imm8(8)" [KwSub true];
  e16 H_add_imm_t2 "adds" AddSub "001 10 Rdn(3) imm8(8)" [];
  (* 141-142 *)
  e16 H_add_reg_t1 "subs" AddSub "000 11 0 1 Rm(3) Rn(3) Rd(3)" [KwSub true];
  e16 H_add_reg_t1 "adds" AddSub "000 11 0 0 Rm(3) Rn(3) Rd(3)" [];
  (* 150 *)
  e16 H_add_reg_t2 "add" AddSub "010001 00 DN Rm(4) Rdn(3)" [];
  (* 157 *)
  e16 H_add_sp_plus_imm_t1 "add" AddSub "1010 1 Rd(3) imm8(8)" [];
  (* 164 *)
  e16 H_add_sp_plus_reg_t1 "add" AddSub "01000100 DM 1101 Rdm(3)" [];
  (* 172 *)
  e16 H_add_sp_plus_reg_t2 "add" AddSub "01000100 1 Rm(4) 101" [];
  (* 182-183 *)
  e16 H_add_sp_plus_imm_t2 "sub" AddSub "1011 0000 1 imm7(7)" [KwSub true];
  e16 H_add_sp_plus_imm_t2 "add" AddSub "1011 0000 0 imm7(7)" [];
  (* 190-192 *)
  e16 H_shift_imm_t1 "asrs" ShiftOp "000 stype=10 imm5(5) Rm(3) Rd(3)" [KwType SR_ASR];
  e16 H_shift_imm_t1 "lsrs" ShiftOp "000 stype=01 imm5(5) Rm(3) Rd(3)" [KwType SR_LSR];
  e16 H_shift_imm_t1 "lsls" ShiftOp "000 stype=00 imm5(5) Rm(3) Rd(3)" [KwType SR_LSL];
  (* 209, 217 *)
  e16 H_rsb "rsbs" ReverseSubtract "010000 1001 Rn(3) Rd(3)" [];
  e32 H_rsb_w "rsb" ReverseSubtract "11110 im 0 1110 S Rn(4)" "0 imm3(3) Rd(4) imm8(8)" [];
  (* 239, 247 *)
  e16 H_mul_t1 "muls" Multiply "010000 1101 Rn(3) Rdm(3)" [];
  e32 H_mul_t2 "mul" Multiply "11111 0110 000 Rn(4)" "1111 Rd(4) 0000 Rm(4)" [];
  (* 265, 272-273 *)
  e16 H_adr_t1 "adr" AddressToRegister "1010 0 Rd(3) imm8(8)" [];
  e32 H_adr_t2 "adr.w" AddressToRegister "11110 im 10000 0 1111" "0 imm3(3) Rd(4) imm8(8)" [KwAdd true];
  e32 H_adr_t2 "adr.w" AddressToRegister "11110 im 10101 0 1111" "0 imm3(3) Rd(4) imm8(8)" [KwAdd false];
  (* 291-294 *)
  e16 H_extend "uxtb" Extend "1011 0010 11 Rm(3) Rd(3)" [KwWidth 8; KwSigned false];
  e16 H_extend "uxth" Extend "1011 0010 10 Rm(3) Rd(3)" [KwWidth 16; KwSigned false];
  e16 H_extend "sxtb" Extend "1011 0010 01 Rm(3) Rd(3)" [KwWidth 8; KwSigned true];
  e16 H_extend "sxth" Extend "1011 0010 00 Rm(3) Rd(3)" [KwWidth 16; KwSigned true];
  (* 301-304 *)
  e32 H_extend2 "uxtb.w" Extend "11111 010 0 101 1111" "1111 Rd(4) 1 0 rotate(2) Rm(4)" [KwWidth 8; KwSigned false];
  e32 H_extend2 "uxth.w" Extend "11111 010 0 001 1111" "1111 Rd(4) 1 0 rotate(2) Rm(4)" [KwWidth 16; KwSigned false];
  e32 H_extend2 "sxtb.w" Extend "11111 010 0 100 1111" "1111 Rd(4) 1 0 rotate(2) Rm(4)" [KwWidth 8; KwSigned true];
  e32 H_extend2 "sxth.w" Extend "11111 010 0 000 1111" "1111 Rd(4) 1 0 rotate(2) Rm(4)" [KwWidth 16; KwSigned true];
  (* 335-337, 343-345 *)
  e16 H_rev "revsh" ByteReverse "1011 1010 11 Rm(3) Rd(3)" [KwWidth 2; KwSigned true];
  e16 H_rev "rev16" ByteReverse "1011 1010 01 Rm(3) Rd(3)" [KwWidth 2; KwSigned false];
  e16 H_rev "rev" ByteReverse   "1011 1010 00 Rm(3) Rd(3)" [KwWidth 4; KwSigned false];
  e32 H_rev_w "revsh.w" ByteReverse "11111 010 1 001 Rm1(4)" "1111 Rd(4) 1 011 Rm2(4)" [KwWidth 2; KwSigned true];
  e32 H_rev_w "rev16.w" ByteReverse "11111 010 1 001 Rm1(4)" "1111 Rd(4) 1 001 Rm2(4)" [KwWidth 2; KwSigned false];
  e32 H_rev_w "rev.w" ByteReverse   "11111 010 1 001 Rm1(4)" "1111 Rd(4) 1 000 Rm2(4)" [KwWidth 4; KwSigned false];
  (* 373, 380, 387, 395, 403, 412, 420, 436 *)
  e16 H_mov_reg "mov" Move "010001 10 D Rm(4) Rd(3)" [];
  e16 H_movs_reg "movs" Move "000 00 00000 Rm(3) Rd(3)" [];
  e32 H_mov_reg_t3 "mov" Move "11101 01 0010 S 1111" "0 000 Rd(4) 0000 Rm(4)" [];
  e16 H_mov1 "movs" Move "001 00 Rd(3) imm8(8)" [];
  e32 H_mov2 "mov" Move "11110 im 0 0010 S 1111" "0 imm3(3) Rd(4) imm8(8)" [];
  e32 H_movw "movw" Move "11110 im 10 0 1 0 0 imm4(4)" "0 imm3(3) Rd(4) imm8(8)" [];
  e16 H_mvn "mvns" Move "010000 1111 Rm(3) Rd(3)" [KwNegate true];
  e32 H_mvnw "mvn" ShiftedMoveNegate "11101 01 0011 S 1111" "0 imm3(3) Rd(4) imm2(2) type(2) Rm(4)" [];
  (* 469, 476-477, 484, 491-492 *)
  e16 H_cmp1 "cmp" Compare "001 01 Rn(3) imm8(8)" [];
  e16 H_cmp3 "cmn" Compare "010000 1011 Rm(3) Rn(3)" [KwNegate false];
  e16 H_cmp3 "cmp" Compare "010000 1010 Rm(3) Rn(3)" [];
  e16 H_cmp4 "cmp" Compare "010001 01 N Rm(4) Rn(3)" [];
  e32 H_cmp2 "cmn" Compare "11110 im 0 1000 1 Rn(4)" "0 imm3(3) 1111 imm8(8)" [KwNegate false];
  e32 H_cmp2 "cmp.w" Compare "11110 im 0 1101 1 Rn(4)" "0 imm3(3) 1111 imm8(8)" [];
  (* 509, 517 *)
  e16 H_tst "tst" Test "010000 1000 Rm(3) Rn(3)" [];
  e32 H_tst_w "tst.w" Test "11101 01 0000 1 Rn(4)" "0 imm3(3) 1111 imm2(2) type(2) Rm(4)" [];
  (* 576, 584, 590, 598, 606 *)
  e16 H_b_t1 "b" Branch "1101 cond(4) imm8(8)" [];
  e16 H_b_t2 "b" Branch "11100 imm11(11)" [];
  e32 H_bl_t1 "bl" Branch "11110 S imm10(10)" "11 J1 1 J2 imm11(11)" [];
  e16 H_blx_t1 "blx" Branch "010001 11 1 Rm(4) 000" [];
  e16 H_bx_t1 "bx" Branch "010001 11 0 Rm(4) 000" [];
  (* 652-659 *)
  e16 H_ldr_str_reg "ldrsh" Load "0101 111 Rm(3) Rn(3) Rt(3)" [KwMemsize 16; KwSigned true];
  e16 H_ldr_str_reg "ldrb" Load  "0101 110 Rm(3) Rn(3) Rt(3)" [KwMemsize 8];
  e16 H_ldr_str_reg "ldrh" Load  "0101 101 Rm(3) Rn(3) Rt(3)" [KwMemsize 16];
  e16 H_ldr_str_reg "ldr" Load   "0101 100 Rm(3) Rn(3) Rt(3)" [KwMemsize 32];
  e16 H_ldr_str_reg "ldrsb" Load "0101 011 Rm(3) Rn(3) Rt(3)" [KwMemsize 8; KwSigned true];
  e16 H_ldr_str_reg "strb" Store "0101 010 Rm(3) Rn(3) Rt(3)" [KwMemsize 8];
  e16 H_ldr_str_reg "strh" Store "0101 001 Rm(3) Rn(3) Rt(3)" [KwMemsize 16];
  e16 H_ldr_str_reg "str" Store  "0101 000 Rm(3) Rn(3) Rt(3)" [KwMemsize 32];
  (* 671-678 *)
  e32 H_ldr_str_reg_t2 "str.w" Store  "11111 00 0 0 10 0 Rn(4)" "Rt(4) 0 00000 imm2(2) Rm(4)" [KwMemsize 32];
  e32 H_ldr_str_reg_t2 "strh.w" Store "11111 00 0 0 01 0 Rn(4)" "Rt(4) 0 00000 imm2(2) Rm(4)" [KwMemsize 16];
  e32 H_ldr_str_reg_t2 "strb.w" Store "11111 00 0 0 00 0 Rn(4)" "Rt(4) 0 00000 imm2(2) Rm(4)" [KwMemsize 8];
  e32 H_ldr_str_reg_t2 "ldrsh.w" Load "11111 00 1 0 01 1 Rn(4)" "Rt(4) 0 00000 imm2(2) Rm(4)" [KwMemsize 16; KwSigned true];
  e32 H_ldr_str_reg_t2 "ldrsb.w" Load "11111 00 1 0 00 1 Rn(4)" "Rt(4) 0 00000 imm2(2) Rm(4)" [KwMemsize 8; KwSigned true];
  e32 H_ldr_str_reg_t2 "ldr.w" Load   "11111 00 0 0 10 1 Rn(4)" "Rt(4) 0 00000 imm2(2) Rm(4)" [KwMemsize 32];
  e32 H_ldr_str_reg_t2 "ldrh.w" Load  "11111 00 0 0 01 1 Rn(4)" "Rt(4) 0 00000 imm2(2) Rm(4)" [KwMemsize 16];
  e32 H_ldr_str_reg_t2 "ldrb.w" Load  "11111 00 0 0 00 1 Rn(4)" "Rt(4) 0 00000 imm2(2) Rm(4)" [KwMemsize 8];
  (* 693-698 *)
  e16 H_ldr_str_imm "ldrh" Load  "100 0 1 imm5(5) Rn(3) Rt(3)" [KwMemsize 16];
  e16 H_ldr_str_imm "strh" Store "100 0 0 imm5(5) Rn(3) Rt(3)" [KwMemsize 16];
  e16 H_ldr_str_imm "ldrb" Load  "011 1 1 imm5(5) Rn(3) Rt(3)" [KwMemsize 8];
  e16 H_ldr_str_imm "strb" Store "011 1 0 imm5(5) Rn(3) Rt(3)" [KwMemsize 8];
  e16 H_ldr_str_imm "ldr" Load   "011 0 1 imm5(5) Rn(3) Rt(3)" [KwMemsize 32];
  e16 H_ldr_str_imm "str" Store  "011 0 0 imm5(5) Rn(3) Rt(3)" [KwMemsize 32];
  (* 729, 736-740 *)
  e16 H_ldr_literal "ldr" LoadLiteral "01001 Rt(3) imm8(8)" [KwMemsize 32];
  e32 H_ldr_literal_w "ldrsb.w" LoadLiteral "11111 00 1 U 00 1 1111" "Rt(4) imm12(12)" [KwMemsize 8; KwSigned true];
  e32 H_ldr_literal_w "ldrsh.w" LoadLiteral "11111 00 1 U 01 1 1111" "Rt(4) imm12(12)" [KwMemsize 16; KwSigned true];
  e32 H_ldr_literal_w "ldrb.w" LoadLiteral  "11111 00 0 U 00 1 1111" "Rt(4) imm12(12)" [KwMemsize 8];
  e32 H_ldr_literal_w "ldrh.w" LoadLiteral  "11111 00 0 U 01 1 1111" "Rt(4) imm12(12)" [KwMemsize 16];
  e32 H_ldr_literal_w "ldr.w" LoadLiteral   "11111 00 0 U 10 1 1111" "Rt(4) imm12(12)" [KwMemsize 32];
  (* 751-752 *)
  e16 H_ldr_str_imm_t2 "ldr" Load  "1001 1 Rt(3) imm8(8)" [KwMemsize 32];
  e16 H_ldr_str_imm_t2 "str" Store "1001 0 Rt(3) imm8(8)" [KwMemsize 32];
  (* 788, 796, 804, 813, 820, 827 *)
  e16 H_push_t1 "push" Push "1011 0 10 M reglist(8)" [];
  e32 H_push_t2 "push.w" Push "11101 00 100 1 0 1101" "0 M 0 reglist(13)" [];
  e32 H_push_t3 "push.w" Push "11111 00 0 0 10 0 1101" "Rt(4) 1 101 00000100" [];
  e16 H_pop_t1 "pop" Pop "1011 1 10 P reglist(8)" [];
  e32 H_pop_t2 "pop.w" Pop "11101 00 010 1 1 1101" "P M 0 reglist(13)" [];
  e32 H_pop_t3 "pop.w" Pop "11111 00 0 0 10 1 1101" "Rt(4) 1 011 00000100" [];
  (* 863-864, 873, 884 *)
  e16 H_stm_ldm_t1 "ldm" LoadMultiple  "1100 1 Rn(3) reglist(8)" [];
  e16 H_stm_ldm_t1 "stm" StoreMultiple "1100 0 Rn(3) reglist(8)" [];
  e32 H_stm_t2 "stm.w" StoreMultiple "11101 00 010 W 0 Rn(4)" "0 M 0 reglist(13)" [];
  e32 H_ldm_t2 "ldm.w" LoadMultiple  "11101 00 010 W 1 Rn(4)" "P M 0 reglist(13)" [];
  (* 914, 924 *)
  e16 H_cps "cps" ChangeProcessorState "1011 0110 011 im 0 0 I F" [];
  e16 H_bkpt "bkpt" Instruction "1011 1110 imm8(8)" [];
  (* 969, 977 *)
  e32 H_mrs "mrs" MoveFromSpecial "11110 0 1111 1 0 1111" "10 0 0 Rd(4) SYSm(8)" [];
  e32 H_msr "msr" MoveToSpecial "11110 0 1110 0 0 Rn(4)" "10 0 0 mask(2) 0 0 SYSm(8)" [];
  (* 990-994 *)
  e16 H_nop "sev" Instruction   "1011 1111 0100 0000" [];
  e16 H_nop "wfi" Instruction   "1011 1111 0011 0000" [];
  e16 H_nop "wfe" Instruction   "1011 1111 0010 0000" [];
  e16 H_nop "yield" Instruction "1011 1111 0001 0000" [];
  e16 H_nop "nop" Instruction   "1011 1111 0000 0000" [];
  (* 1000-1002 *)
  e32 H_barrier "isb" Instruction "11110 0 111 01 1 1111" "10 0 0 1111 0110 option(4)" [];
  e32 H_barrier "dmb" Instruction "11110 0 111 01 1 1111" "10 0 0 1111 0101 option(4)" [];
  e32 H_barrier "dsb" Instruction "11110 0 111 01 1 1111" "10 0 0 1111 0100 option(4)" [];
  (* 1009-1010, 1015 *)
  e16 H_udf_t1 "svc" Instruction "1101 1111 imm8(8)" [];
  e16 H_udf_t1 "udf" Instruction "1101 1110 imm8(8)" [];
  e32 H_udf_t2 "udf.w" Instruction "111 10 1111111 imm4(4)" "1 010 imm12(12)" []
].

(** decoder.py:272-276: importing instructions.py *)
Definition register_entry (e : entry) : res (decoder hid) :=
  let '(h, mnemonic, k, spec, spec2, kw) := e in make_decoder h mnemonic k spec spec2 kw.
Definition DECODERS : res (list (decoder hid)) := map_res register_entry entries.

(** disasm.py:20-21: the built tree *)
Definition DECODER_TREE : res (dtree hid) := let* ds := DECODERS in build ds.
