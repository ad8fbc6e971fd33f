(** Property statements; each is proved in UtilThms.v under the same name.
    Written by tools/genprops.py. *)
From Verif Require Import BitstringModel SpecBits UtilModel UtilThms.

(** C21: reading a halfword or a word at any offset inside a list of bytes. *)
Theorem C21_read : forall data off, 0 <= off -> Forall (fun b => 0 <= b < 256) data ->
  (off + 1 < Z.of_nat (List.length data) ->
   bytes_to_le16 data off = Ok (le_number (firstn 2 (skipn (Z.to_nat off) data)))) /\
  (off + 3 < Z.of_nat (List.length data) ->
   bytes_to_le32 data off = Ok (le_number (firstn 4 (skipn (Z.to_nat off) data)))).
Proof. exact C21_read_proof. Qed.
Print Assumptions C21_read.

Example C21_read_ex : bytes_to_le16 [17; 34; 51; 68; 85] 1 = Ok 13090 /\ bytes_to_le32 [17; 34; 51; 68; 85] 1 = Ok 1430532898.
Proof. split; reflexivity. Qed.

(** C21: a read that runs past the end raises. *)
Theorem C21_short : forall data off, 0 <= off ->
  (Z.of_nat (List.length data) <= off + 1 -> bytes_to_le16 data off = Err IndexError) /\
  (Z.of_nat (List.length data) <= off + 3 -> bytes_to_le32 data off = Err IndexError).
Proof. exact C21_short_proof. Qed.
Print Assumptions C21_short.

Example C21_short_ex : bytes_to_le16 [1] 0 = Err IndexError /\ bytes_to_le32 [1; 2; 3; 4] 2 = Err IndexError.
Proof. split; reflexivity. Qed.

(** C21: value to bytes and back, for every integer. *)
Theorem C21_value_round : forall v,
  bytes_to_le16 (le16_to_bytes v) 0 = Ok (v mod 2 ^ 16) /\
  bytes_to_le32 (le32_to_bytes v) 0 = Ok (v mod 2 ^ 32).
Proof. exact C21_value_round_proof. Qed.
Print Assumptions C21_value_round.

Example C21_value_round_ex : le32_to_bytes 305419896 = [120; 86; 52; 18] /\ bytes_to_le32 [120; 86; 52; 18] 0 = Ok 305419896.
Proof. split; reflexivity. Qed.

(** C21: bytes to value and back. *)
Theorem C21_bytes_round : forall a b c d, 0 <= a < 256 -> 0 <= b < 256 -> 0 <= c < 256 -> 0 <= d < 256 ->
  (exists v, bytes_to_le16 [a; b] 0 = Ok v /\ 0 <= v < 2 ^ 16 /\ le16_to_bytes v = [a; b]) /\
  (exists v, bytes_to_le32 [a; b; c; d] 0 = Ok v /\ 0 <= v < 2 ^ 32 /\ le32_to_bytes v = [a; b; c; d]).
Proof. exact C21_bytes_round_proof. Qed.
Print Assumptions C21_bytes_round.

Example C21_bytes_round_ex : bytes_to_le16 [52; 18] 0 = Ok 4660 /\ le16_to_bytes 4660 = [52; 18].
Proof. split; reflexivity. Qed.

(** C21, list converters, 16 bits: units to bytes and back. *)
Theorem C21_list16_units : forall l, Forall (fun v => 0 <= v < 2 ^ 16) l ->
  byteListToU16leList (u16leListToByteList l) = Ok l.
Proof. exact C21_list16_units_proof. Qed.
Print Assumptions C21_list16_units.

Example C21_list16_units_ex : u16leListToByteList [4660; 65535] = [52; 18; 255; 255].
Proof. reflexivity. Qed.

(** C21, list converters, 16 bits: bytes to units and back on lists of whole
units; an odd list raises. *)
Theorem C21_list16_bytes : forall l, Forall (fun b => 0 <= b < 256) l ->
  (Z.even (Z.of_nat (List.length l)) = true ->
   exists u, byteListToU16leList l = Ok u /\ Forall (fun v => 0 <= v < 2 ^ 16) u /\ u16leListToByteList u = l) /\
  (Z.even (Z.of_nat (List.length l)) = false -> byteListToU16leList l = Err IndexError).
Proof. exact C21_list16_bytes_proof. Qed.
Print Assumptions C21_list16_bytes.

Example C21_list16_bytes_ex : byteListToU16leList [52; 18; 255; 255] = Ok [4660; 65535] /\
  byteListToU16leList [52; 18; 255] = Err IndexError.
Proof. split; reflexivity. Qed.

(** C21, list converters, 32 bits (Python 2): units to bytes and back. *)
Theorem C21_list32_units_partial : forall l, Forall (fun v => 0 <= v < 2 ^ 32) l ->
  byteListToU32leList Py2 (u32leListToByteList l) = Ok l.
Proof. exact C21_list32_units_partial_proof. Qed.
Print Assumptions C21_list32_units_partial.

Example C21_list32_units_ex : u32leListToByteList [305419896] = [120; 86; 52; 18] /\
  byteListToU32leList Py2 [120; 86; 52; 18] = Ok [305419896].
Proof. split; reflexivity. Qed.

(** C21, list converters, 32 bits (Python 2): bytes to units; a trailing partial
unit is dropped. *)
Theorem C21_list32_bytes_partial : forall l, Forall (fun b => 0 <= b < 256) l ->
  exists u, byteListToU32leList Py2 l = Ok u /\ Forall (fun v => 0 <= v < 2 ^ 32) u /\
    u32leListToByteList u = firstn (4 * (List.length l / 4)) l.
Proof. exact C21_list32_bytes_partial_proof. Qed.
Print Assumptions C21_list32_bytes_partial.

Example C21_list32_bytes_ex : byteListToU32leList Py2 [1; 0; 0; 0; 2; 0; 0; 0; 9] = Ok [1; 2].
Proof. reflexivity. Qed.

(** C21 fails on Python 3 for the 32-bit list converter: [range] of a float. *)
Theorem C21_list32_py3_refuted : exists l, Forall (fun v => 0 <= v < 2 ^ 32) l /\
  byteListToU32leList Py3 (u32leListToByteList l) = Err TypeError.
Proof. exact C21_list32_py3_refuted_proof. Qed.
Print Assumptions C21_list32_py3_refuted.

(** C22: bitmask sets exactly the named bits. *)
Theorem C22_bitmask : forall args,
  let named := fun (a : mask_arg) i => match a with ATuple msb lsb => lsb <= i <= msb
                         | AList l => In i l | AInt n => i = n | AOther => False end in
  ((forall a i, In a args -> named a i -> 0 <= i) ->
   exists m, bitmask args = Ok m /\ 0 <= m /\
   forall i, 0 <= i -> (Z.testbit m i = true <-> exists a, In a args /\ named a i)) /\
  ((exists a i, In a args /\ named a i /\ i < 0) -> bitmask args = Err ValueError).
Proof. exact C22_bitmask_proof. Qed.
Print Assumptions C22_bitmask.

Example C22_bitmask_ex : bitmask [ATuple 23 17; AInt 1] = Ok 16646146 /\
  bitmask [AList [4; 0; 2]; ATuple 31 24] = Ok 4278190101 /\ bitmask [AInt (-1)] = Err ValueError.
Proof. repeat split. Qed.

(** C22: bfx reads bits msb..lsb, for a field not starting at bit 0. *)
Theorem C22_bfx_partial : forall v msb lsb, 0 < lsb <= msb ->
  bfx v msb (Some lsb) = Ok ((v / 2 ^ lsb) mod 2 ^ (msb - lsb + 1)).
Proof. exact C22_bfx_partial_proof. Qed.
Print Assumptions C22_bfx_partial.

Example C22_bfx_ex : bfx 43981 11 (Some 4) = Ok 188.
Proof. reflexivity. Qed.

(** C22: without lsb, or with lsb 0, bfx reads the single bit msb. *)
Theorem C22_bfx_bit : forall v msb, 0 <= msb ->
  bfx v msb None = Ok (if Z.testbit v msb then 1 else 0) /\
  bfx v msb (Some 0) = Ok (if Z.testbit v msb then 1 else 0).
Proof. exact C22_bfx_bit_proof. Qed.
Print Assumptions C22_bfx_bit.

Example C22_bfx_bit_ex : bfx 8 3 None = Ok 1 /\ bfx 8 2 (Some 0) = Ok 0.
Proof. split; reflexivity. Qed.

(** C22 fails for fields that start at bit 0: [lsb or msb] (utilities.py:142)
takes lsb = 0 for a missing argument. *)
Theorem C22_bfx_refuted : exists v msb, 0 <= msb /\
  bfx v msb (Some 0) <> Ok ((v / 2 ^ 0) mod 2 ^ (msb - 0 + 1)).
Proof. exact C22_bfx_refuted_proof. Qed.
Print Assumptions C22_bfx_refuted.

(** C22: bfi replaces exactly bits msb..lsb by the low bits of the field (lsb = 0
or no lsb: exactly bit msb). *)
Theorem C22_bfi_partial : forall v f msb lsb,
  let low := match lsb with Some 0 | None => msb | Some l => l end in
  0 <= low ->
  exists r, bfi v f msb lsb = Ok r /\
    forall i, 0 <= i -> Z.testbit r i = if (low <=? i) && (i <=? msb) then Z.testbit f (i - low) else Z.testbit v i.
Proof. exact C22_bfi_partial_proof. Qed.
Print Assumptions C22_bfi_partial.

Example C22_bfi_ex : bfi 65535 5 7 (Some 4) = Ok 65375 /\ bfi 0 1 9 None = Ok 512.
Proof. split; reflexivity. Qed.

(** C22 fails for bfi on fields that start at bit 0. *)
Theorem C22_bfi_refuted : exists v f msb r, bfi v f msb (Some 0) = Ok r /\
  exists i, 0 <= i <= msb /\ Z.testbit r i <> Z.testbit f i.
Proof. exact C22_bfi_refuted_proof. Qed.
Print Assumptions C22_bfi_refuted.

(** C22: bfx after bfi returns the field. *)
Theorem C22_bfx_bfi_partial : forall v f msb lsb, 0 < lsb <= msb -> 0 <= f < 2 ^ (msb - lsb + 1) ->
  exists r, bfi v f msb (Some lsb) = Ok r /\ bfx r msb (Some lsb) = Ok f.
Proof. exact C22_bfx_bfi_partial_proof. Qed.
Print Assumptions C22_bfx_bfi_partial.

Example C22_bfx_bfi_ex : exists r, bfi 12345 77 20 (Some 9) = Ok r /\ bfx r 20 (Some 9) = Ok 77.
Proof. eexists. split; [reflexivity|reflexivity]. Qed.

(** C22: wmask, invert32 and hamming_weight. *)
Theorem C22_wmask : forall n, (0 <= n -> wmask n = Ok (2 ^ n - 1)) /\ (n < 0 -> wmask n = Err ValueError).
Proof. exact C22_wmask_proof. Qed.
Print Assumptions C22_wmask.

Example C22_wmask_ex : wmask 4 = Ok 15.
Proof. reflexivity. Qed.

Theorem C22_invert32 : forall v, invert32 v = 2 ^ 32 - 1 - v mod 2 ^ 32.
Proof. exact C22_invert32_proof. Qed.
Print Assumptions C22_invert32.

Example C22_invert32_ex : invert32 5 = 4294967290 /\ invert32 (-1) = 0.
Proof. split; reflexivity. Qed.

Theorem C22_hamming : forall v w, 0 <= w -> 0 <= v < 2 ^ w ->
  hamming_weight v = Ok (ones_below (Z.to_nat w) v).
Proof. exact C22_hamming_proof. Qed.
Print Assumptions C22_hamming.

Example C22_hamming_ex : hamming_weight 61440 = Ok 4.
Proof. reflexivity. Qed.

(** The two float converters always raise: [struct] is not imported. *)
Theorem C22_float_raises : forall v, u32BEToFloat32BE v = Err NameError /\ float32beToU32be v = Err NameError.
Proof. exact C22_float_raises_proof. Qed.
Print Assumptions C22_float_raises.
