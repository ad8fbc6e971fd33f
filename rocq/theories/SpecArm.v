(** * Vocabulary for the statements about the architecture helpers

    Arithmetic readings of the shift, rotate and immediate-expansion operations of
    the ARMv7-M manual; independent of the model's definitions. *)
From Verif Require Import BitstringModel SpecBits HelpersModel.

(** A one-bit object. *)
Definition bitv (b : bool) : bs := mkbs 1 (if b then 1 else 0) 1.

(** Rotation of a [w]-bit value right by [n] places. *)
Definition rotr (w v n : Z) : Z :=
  let m := n mod w in v / 2 ^ m + (v mod 2 ^ m) * 2 ^ (w - m).

(** The value of the 12-bit Thumb modified immediate [v]. *)
Definition expand_imm (v : Z) : Z :=
  let low := v mod 256 in
  if v / 1024 =? 0 then
    match v / 256 with
    | 0 => low
    | 1 => low * 65537                 (* 00XY00XY *)
    | 2 => low * 256 * 65537           (* XY00XY00 *)
    | _ => low * 16843009              (* XYXYXYXY *)
    end
  else rotr 32 (128 + v mod 128) (v / 128).

(** Whether it is one of the rotated forms, which define the carry. *)
Definition imm_rotated (v : Z) : bool := negb (v / 1024 =? 0).

(** The shift named by the two type bits and the five amount bits. *)
Definition imm_shift (t n : Z) : srtype * Z :=
  match t with
  | 0 => (SR_LSL, n)
  | 1 => (SR_LSR, if n =? 0 then 32 else n)
  | 2 => (SR_ASR, if n =? 0 then 32 else n)
  | _ => if n =? 0 then (SR_RRX, 1) else (SR_ROR, n)
  end.

(** Result and carry out of shifting the [w]-bit value [v] by [n] places with carry
    in [c].  The carry out of a shift is the last bit shifted out. *)
Definition shift_result (t : srtype) (w v n : Z) (c : bool) : Z * bool :=
  if n =? 0 then (v, c) else
  match t with
  | SR_None => (v, c)
  | SR_LSL => ((v * 2 ^ n) mod 2 ^ w, (n <=? w) && Z.testbit v (w - n))
  | SR_LSR => (v / 2 ^ n, Z.testbit v (n - 1))
  | SR_ASR => ((twos w v / 2 ^ n) mod 2 ^ w, Z.testbit v (Z.min (n - 1) (w - 1)))
  | SR_ROR => (rotr w v n, Z.testbit v ((n - 1) mod w))
  | SR_RRX => ((if c then 1 else 0) * 2 ^ (w - 1) + v / 2, Z.testbit v 0)
  end.
