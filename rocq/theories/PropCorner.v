(** Property statements; each is proved in CornerThms.v under the same name.
    Written by tools/genprops.py. *)
From Verif Require Import BitstringModel SpecBits SpecArm HelpersModel UtilModel DumpModel SpecApi SpecDump CornerThms.

(** C02: every operand on the left is first made a bitstring. *)
Theorem C02_reflected_any : forall b v,
  match bs_init v None with
  | Ok a =>
    bs_radd b v = bs_add a (VBits b) /\ bs_rsub b v = bs_sub a (VBits b) /\
    bs_rmul b v = bs_mul a (VBits b) /\ bs_rfloordiv b v = bs_floordiv a (VBits b) /\
    bs_rand b v = bs_and a (VBits b) /\ bs_ror b v = bs_or a (VBits b) /\
    bs_rxor b v = bs_xor a (VBits b) /\ bs_rmod b v = bs_mod a (VBits b)
  | Err e =>
    bs_radd b v = Err e /\ bs_rsub b v = Err e /\ bs_rmul b v = Err e /\ bs_rfloordiv b v = Err e /\
    bs_rand b v = Err e /\ bs_ror b v = Err e /\ bs_rxor b v = Err e /\ bs_rmod b v = Err e
  end.
Proof. exact C02_reflected_any_proof. Qed.
Print Assumptions C02_reflected_any.

Example C02_reflected_any_ex : bs_rsub (bits 8 1) (VStr "1000") = Ok (bits 4 7) /\ bs_radd (bits 8 1) (VStr "12") = Err ValueError.
Proof. split; reflexivity. Qed.

(** C05: the remaining ill-typed and out of range assignments. *)
Theorem C05_errors_rest : forall b, wf b ->
  (forall i l py, i < bw b -> bs_setitem b (KInt i) (VSeq l) = Err TypeError /\ bs_setitem b (KInt i) (VBytearray py l) = Err TypeError) /\
  (forall i x, i < - bw b -> bw x = 1 -> bs_setitem b (KInt i) (VBits x) = Err ValueError) /\
  (forall s value, slice_bounds s (bw b) = None -> bs_setitem b (KSlice s) value = Err ValueError) /\
  (forall s start stop py l, slice_bounds s (bw b) = Some (start, stop, 1) -> bs_setitem b (KSlice s) (VBytearray py l) = Err TypeError) /\
  (forall s start stop t e, slice_bounds s (bw b) = Some (start, stop, 1) -> bs_init (VStr t) None = Err e ->
     bs_setitem b (KSlice s) (VStr t) = Err e) /\
  (forall s start stop t x, slice_bounds s (bw b) = Some (start, stop, 1) -> bs_init (VStr t) None = Ok x -> stop < start ->
     bs_setitem b (KSlice s) (VStr t) = Err ValueError).
Proof. exact C05_errors_rest_proof. Qed.
Print Assumptions C05_errors_rest.

Example C05_errors_rest_ex : bs_setitem (bits 8 0) (KSlice (mkslice None None (Some 0))) (VInt 1) = Err ValueError /\
  bs_setitem (bits 8 0) (KSlice (mkslice None None None)) (VStr "2") = Err ValueError /\
  bs_setitem (bits 8 0) (KInt 0) (VSeq [1]) = Err TypeError /\ bs_setitem (bits 8 0) (KInt (-9)) (VBits (bits 1 1)) = Err ValueError.
Proof. repeat split; reflexivity. Qed.

(** C08: texts that are no binary numbers, and objects of less than two bits against
negative ints: their signed value reads as 0. *)
Theorem C08_rest : forall a,
  (forall s e, bs_init (VStr s) None = Err e ->
     bs_eq a (VStr s) = Err e /\ bs_ne a (VStr s) = Err e /\ bs_lt a (VStr s) = Err e /\
     bs_le a (VStr s) = Err e /\ bs_gt a (VStr s) = Err e /\ bs_ge a (VStr s) = Err e) /\
  (forall z, z < 0 -> bw a < 2 ->
     bs_eq a (VInt z) = Ok (a, false) /\ bs_ne a (VInt z) = Ok (a, true) /\ bs_lt a (VInt z) = Ok (a, false) /\
     bs_le a (VInt z) = Ok (a, false) /\ bs_gt a (VInt z) = Ok (a, true) /\ bs_ge a (VInt z) = Ok (a, true)).
Proof. exact C08_rest_proof. Qed.
Print Assumptions C08_rest.

Example C08_rest_ex : bs_ge (bits 1 1) (VInt (-1)) = Ok (bits 1 1, true) /\ bs_gt (bits 1 1) (VStr "x") = Err ValueError.
Proof. split; reflexivity. Qed.

(** C08: what every comparison with a negative int leaves behind: the complement, if the
sign bit was set. *)
Theorem C08_left_behind : forall a z, wf a -> 2 <= bw a -> z < 0 ->
  let a' := if bv a <? 2 ^ (bw a - 1) then a else bits (bw a) (2 ^ bw a - 1 - bv a) in
  let t := twos (bw a) (bv a) in
  bs_eq a (VInt z) = Ok (a', t =? z) /\ bs_ne a (VInt z) = Ok (a', negb (t =? z)) /\
  bs_lt a (VInt z) = Ok (a', t <? z) /\ bs_ge a (VInt z) = Ok (a', z <=? t) /\
  bs_le a (VInt z) = Ok (a', t =? z) /\ bs_gt a (VInt z) = Ok (a', negb (t =? z)).
Proof. exact C08_left_behind_proof. Qed.
Print Assumptions C08_left_behind.

Example C08_left_behind_ex : bs_eq (bits 8 0xfb) (VInt (-5)) = Ok (bits 8 4, true).
Proof. reflexivity. Qed.

(** C12: a list of ints that need not be 0 or 1: the numbers are added bit by bit, each shifted
by its distance from the end. *)
Theorem C12_any_list : forall l w, l <> [] ->
  (w = None \/ exists n, w = Some n /\ 0 <= n) ->
  exists r, bs_init (VSeq l) w = Ok r /\ wf r /\
    bw r = match w with Some n => n | None => Z.of_nat (List.length l) end /\
    forall i, 0 <= i < bw r ->
      bit r i = existsb (fun j => Z.testbit (nth j (rev l) 0) (i - Z.of_nat j)) (seq 0 (List.length l)).
Proof. exact C12_any_list_proof. Qed.
Print Assumptions C12_any_list.

Example C12_any_list_ex : bs_init (VSeq [3; 0; 5]) None = Ok (bits 3 5) /\ bs_init (VSeq [3; 0; 5]) (Some 8) = Ok (bits 8 13).
Proof. split; reflexivity. Qed.

(** C14: the operands that &, | and ^ reject. *)
Theorem C14_rejects : forall a,
  (forall v, v = VNone \/ v = VOther \/ (exists l, v = VSeq l) \/ (exists py l, v = VBytearray py l) ->
    bs_and a v = Err TypeError /\ bs_or a v = Err TypeError /\ bs_xor a v = Err TypeError) /\
  (forall s e, bs_init (VStr s) None = Err e ->
    bs_and a (VStr s) = Err e /\ bs_or a (VStr s) = Err e /\ bs_xor a (VStr s) = Err e).
Proof. exact C14_rejects_proof. Qed.
Print Assumptions C14_rejects.

Example C14_rejects_ex : bs_and (bits 8 3) (VSeq [1]) = Err TypeError /\ bs_or (bits 8 3) (VStr "2") = Err ValueError.
Proof. split; reflexivity. Qed.

(** C15: the empty bitstring. *)
Theorem C15_hex_empty : bs_hex (bits 0 0) = "0'h0"%string.
Proof. exact C15_hex_empty_proof. Qed.
Print Assumptions C15_hex_empty.

(** C17: rotating by a negative amount rotates to the left. *)
Theorem C17_negative_rotation : forall x n c, wf x -> 1 <= bw x -> n < 0 ->
  let v := rotr (bw x) (bv x) (n mod bw x) in
  ROR_C x n = Ok (bits (bw x) v, bitv (Z.testbit v (bw x - 1))) /\ ROR x n = Ok (bits (bw x) v) /\
  Shift_C x SR_ROR n c = Ok (bits (bw x) v, bitv (Z.testbit v (bw x - 1))).
Proof. exact C17_negative_rotation_proof. Qed.
Print Assumptions C17_negative_rotation.

Example C17_negative_rotation_ex : ROR (bits 8 129) (-1) = Ok (bits 8 3).
Proof. reflexivity. Qed.

(** C21: reading at any offset; negative positions count from the end, as everywhere in Python. *)
Theorem C21_any_offset : forall data off, Forall (fun b => 0 <= b < 256) data ->
  let n := Z.of_nat (List.length data) in
  let at_ i := nth (Z.to_nat (from_end n i)) data 0 in
  bytes_to_le16 data off = (if (- n <=? off) && (off + 1 <? n) then Ok (at_ off + 256 * at_ (off + 1)) else Err IndexError) /\
  bytes_to_le32 data off = (if (- n <=? off) && (off + 3 <? n)
    then Ok (at_ off + 256 * at_ (off + 1) + 65536 * at_ (off + 2) + 16777216 * at_ (off + 3)) else Err IndexError).
Proof. exact C21_any_offset_proof. Qed.
Print Assumptions C21_any_offset.

Example C21_any_offset_ex : bytes_to_le16 [1; 2; 3] (-1) = Ok 259 /\ bytes_to_le16 [1; 2; 3] (-2) = Ok 770 /\ bytes_to_le16 [1; 2; 3] (-4) = Err IndexError.
Proof. repeat split. Qed.

(** C82: what the failing dump has printed: in Python 3 the first mask of a tree that is not a
single leaf is the last line. *)
Theorem C82_py3_lines : forall (H : Type) (ds16 ds32 : list (decoder H)) t16 t32,
  let shown t := match t with
    | Leaf ds => (MaskLine 0 0 :: map (fun '(i, d) => DecoderLine 0 i d) (combine (seq 0 (List.length ds)) ds))%list
    | Node m _ => [MaskLine 0 m]
    | EmptyList => []
    end in
  fst (dump 2 Py3 (mkregistry ds16 ds32 (Some t16) (Some t32)) None) =
    (Heading "16-bit instructions:" :: shown t16 ++ if leaf t16 then Heading "32-bit instructions:" :: shown t32 else [])%list.
Proof. exact C82_py3_lines_proof. Qed.
Print Assumptions C82_py3_lines.

Example C82_py3_lines_ex : let call := fun (_ : pyver) (_ : Z) i (_ : list (string * bs)) => Ok i in
  fst (dump 2 Py3 (r_history call [RInstr 1 "one" Instruction "0000 0000 a(8)" None []; RInstr 2 "two" Instruction "0000 0001 a(8)" None []; RBuild]) None)
  = [Heading "16-bit instructions:"; MaskLine 0 65280].
Proof. vm_compute. reflexivity. Qed.
