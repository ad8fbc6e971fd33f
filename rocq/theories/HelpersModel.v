(** * Model of /repo/cmdis/helpers.py *)
From Verif Require Export UtilModel.

(** helpers.py:22-28 *)
Inductive srtype := SR_None | SR_LSL | SR_LSR | SR_ASR | SR_ROR | SR_RRX.

(** [.value] of the enum *)
Definition sr_value (t : srtype) : Z :=
  match t with SR_None => 0 | SR_LSL => 1 | SR_LSR => 2 | SR_ASR => 3 | SR_ROR => 4 | SR_RRX => 5 end.
Definition sr_eqb (a b : srtype) : bool := sr_value a =? sr_value b.

Definition assert_ (c : bool) : res unit := if c then Ok tt else Err AssertionError.

(** helpers.py:30-36 on an int *)
Definition Align_int (value alignment : Z) : res Z :=
  let* _ := assert_ (negb (alignment =? 0)) in
  Ok (Z.land value (Z.lnot (alignment - 1))).

(** helpers.py:30-36 on a bitstring *)
Definition Align_bits (value : bs) (alignment : Z) : res bs :=
  let* _ := assert_ (negb (alignment =? 0)) in
  let* m := bs_init (VInt (alignment - 1)) (Some (bw value)) in
  let* mask := bs_invert m in
  bs_and value (VBits mask).

(** helpers.py:40-47.  Reading [signed] (lines 43 and 46) can change the operands
    and the result, so the state of x and y afterwards is returned too:
    ((x', y'), (result, carry_out, overflow)).  x and y are distinct objects. *)
Definition AddWithCarry (x y carry_in : bs) : res ((bs * bs) * (bs * bs * bs)) :=
  let* _ := assert_ (bw x =? bw y) in
  let unsigned_sum := bs_unsigned x + bs_unsigned y + bs_unsigned carry_in in
  let* '(x', sx) := bs_signed x in
  let* '(y', sy) := bs_signed y in
  let signed_sum := sx + sy + bs_unsigned carry_in in
  let* result := bs_init (VInt unsigned_sum) (Some (bw x)) in
  let carry_out := if bs_unsigned result =? unsigned_sum then bit0 else bit1 in
  let* '(result', sr) := bs_signed result in
  let overflow := if sr =? signed_sum then bit0 else bit1 in
  Ok ((x', y'), (result', carry_out, overflow)).

(** helpers.py:49-54 *)
Definition LSL_C (x : bs) (shift : Z) : res (bs * bs) :=
  let* _ := assert_ (0 <? shift) in
  let* z := zeros shift in
  let* ext_x := bs_mod x (VBits z) in
  let* result := bs_getslice ext_x (sl 0 (bw x)) in
  let* carry_out := bs_get_bit ext_x (bw x) in
  Ok (result, carry_out).

(** helpers.py:56-57 *)
Definition LSL (x : bs) (shift : Z) : res bs := bs_lshift x (VInt shift).

(** helpers.py:59-64 *)
Definition LSR_C (x : bs) (shift : Z) : res (bs * bs) :=
  let* _ := assert_ (0 <? shift) in
  let* ext_x := bs_zero_extend x (shift + bw x) in
  let* result := bs_getslice ext_x (sl shift (shift + bw x)) in
  let* carry_out := bs_get_bit ext_x (shift - 1) in
  Ok (result, carry_out).

(** helpers.py:66-67 *)
Definition LSR (x : bs) (shift : Z) : res bs := bs_rshift x (VInt shift).

(** helpers.py:69-74 *)
Definition ASR_C (x : bs) (shift : Z) : res (bs * bs) :=
  let* _ := assert_ (0 <? shift) in
  let* ext_x := bs_sign_extend x (shift + bw x) in
  let* result := bs_getslice ext_x (sl shift (shift + bw x)) in
  let* carry_out := bs_get_bit ext_x (shift - 1) in
  Ok (result, carry_out).

(** helpers.py:76-82: line 79 names an undefined variable *)
Definition ASR (x : bs) (shift : Z) : res bs :=
  let* _ := assert_ (0 <=? shift) in
  if shift =? 0 then Err NameError
  else let* '(result, _) := ASR_C x shift in Ok result.

(** helpers.py:84-89 *)
Definition ROR_C (x : bs) (shift : Z) : res (bs * bs) :=
  let* _ := assert_ (negb (shift =? 0)) in
  if bw x =? 0 then Err ZeroDivisionError else
  let m := shift mod bw x in
  let* lo := LSR x m in
  let* hi := LSL x (bw x - m) in
  let* result := bs_or lo (VBits hi) in
  let* carry_out := bs_get_bit result (bw x - 1) in
  Ok (result, carry_out).

(** helpers.py:91-96 *)
Definition ROR (x : bs) (shift : Z) : res bs :=
  if shift =? 0 then Ok x
  else let* '(result, _) := ROR_C x shift in Ok result.

(** helpers.py:98-101 *)
Definition RRX_C (x carry_in : bs) : res (bs * bs) :=
  let* hi := bs_getslice x (sl 1 (bw x)) in
  let* result := bs_mod carry_in (VBits hi) in
  let* carry_out := bs_get_bit x 0 in
  Ok (result, carry_out).

(** helpers.py:103-105 *)
Definition RRX (x carry_in : bs) : res bs :=
  let* '(result, _) := RRX_C x carry_in in Ok result.

(** helpers.py:107-124 *)
Definition Shift_C (value : bs) (type : srtype) (amount : Z) (carry_in : bs) : res (bs * bs) :=
  let* _ := assert_ (negb (sr_eqb type SR_RRX && negb (amount =? 1))) in
  if (amount =? 0) || sr_eqb type SR_None then Ok (value, carry_in)
  else match type with
       | SR_LSL => LSL_C value amount
       | SR_LSR => LSR_C value amount
       | SR_ASR => ASR_C value amount
       | SR_ROR => ROR_C value amount
       | SR_RRX => RRX_C value carry_in
       | SR_None => Err NameError
       end.

(** helpers.py:126-128 *)
Definition Shift (value : bs) (type : srtype) (amount : Z) (carry_in : bs) : res bs :=
  let* '(result, _) := Shift_C value type amount carry_in in Ok result.

(** [b == "..."] on a bitstring: no effect on [b] for text operands *)
Definition eq_text (b : bs) (s : string) : res bool :=
  let* '(_, r) := bs_eq b (VStr s) in Ok r.

(** helpers.py:130-149 *)
Definition DecodeImmShift (type imm5 : bs) : res (srtype * Z) :=
  let* t00 := eq_text type "00" in
  if t00 then Ok (SR_LSL, bs_unsigned imm5) else
  let* t01 := eq_text type "01" in
  if t01 then
    let* z := eq_text imm5 "00000" in Ok (SR_LSR, if z then 32 else bs_unsigned imm5) else
  let* t10 := eq_text type "10" in
  if t10 then
    let* z := eq_text imm5 "00000" in Ok (SR_ASR, if z then 32 else bs_unsigned imm5) else
  let* t11 := eq_text type "11" in
  if t11 then
    let* z := eq_text imm5 "00000" in
    if z then Ok (SR_RRX, 1) else Ok (SR_ROR, bs_unsigned imm5)
  else Err ValueError.

(** helpers.py:152-168.  If no case of lines 156-162 applies, line 164 returns an
    unbound variable (UnboundLocalError, a NameError). *)
Definition ThumbExpandImm_C (imm12 carry_in : bs) : res (bs * bs) :=
  let* top := bs_getslice imm12 (sl 10 12) in
  let* rep := eq_text top "00" in
  if rep then
    let* imm12_8 := bs_getslice imm12 (sl 8 10) in
    let* imm12_0 := bs_getslice imm12 (sl 0 8) in
    let* c00 := eq_text imm12_8 "00" in
    let* c01 := eq_text imm12_8 "01" in
    let* c10 := eq_text imm12_8 "10" in
    let* c11 := eq_text imm12_8 "11" in
    let* z8 := bs_init (VStr "00000000") None in
    let* imm32 :=
      if c00 then bs_zero_extend imm12_0 32
      else if c01 then
        let* a := bs_mod z8 (VBits imm12_0) in
        let* b := bs_mod a (VBits z8) in bs_mod b (VBits imm12_0)
      else if c10 then
        let* a := bs_mod imm12_0 (VBits z8) in
        let* b := bs_mod a (VBits imm12_0) in bs_mod b (VBits z8)
      else if c11 then
        let* a := bs_mod imm12_0 (VBits imm12_0) in
        let* b := bs_mod a (VBits imm12_0) in bs_mod b (VBits imm12_0)
      else Err NameError in
    Ok (imm32, carry_in)
  else
    let* lo := bs_getslice imm12 (sl 0 7) in
    let* u := bs_mod bit1 (VBits lo) in
    let* unrotated := bs_zero_extend u 32 in
    let* rot := bs_getslice imm12 (sl 7 12) in
    ROR_C unrotated (bs_unsigned rot).

(** helpers.py:170-173 *)
Definition ThumbExpandImm (imm12 : bs) : res bs :=
  let* '(imm32, _) := ThumbExpandImm_C imm12 bit0 in Ok imm32.
