(** * Model of /repo/cmdis/utilities.py *)
From Verif Require Export BitstringModel.

(** Indexing a Python sequence: negative indices count from the end. *)
Definition py_nth (l : list Z) (i : Z) : res Z :=
  let n := Z.of_nat (List.length l) in
  let j := if i <? 0 then i + n else i in
  if (j <? 0) || (n <=? j) then Err IndexError
  else match nth_error l (Z.to_nat j) with Some x => Ok x | None => Err IndexError end.

(** utilities.py:18-23; the loop does not end on a negative argument, the model
    then returns [OutOfFuel]. *)
Definition hamming_weight (v : Z) : res Z :=
  count_loop (S (Z.to_nat (Z.log2 v))) v 0.

(** utilities.py:28-29 *)
Definition bytes_to_le16 (data : list Z) (offset : Z) : res Z :=
  let* b0 := py_nth data offset in
  let* b1 := py_nth data (offset + 1) in
  Ok (Z.lor b0 (Z.shiftl b1 8)).

(** utilities.py:34-35 *)
Definition bytes_to_le32 (data : list Z) (offset : Z) : res Z :=
  let* b0 := py_nth data offset in
  let* b1 := py_nth data (offset + 1) in
  let* b2 := py_nth data (offset + 2) in
  let* b3 := py_nth data (offset + 3) in
  Ok (Z.lor (Z.lor (Z.lor b0 (Z.shiftl b1 8)) (Z.shiftl b2 16)) (Z.shiftl b3 24)).

(** utilities.py:40-41, 46-47; the [offset] parameter is unused *)
Definition le16_to_bytes (value : Z) : list Z :=
  map (fun i => Z.land (Z.shiftr value (i * 8)) 255) (py_range 2).
Definition le32_to_bytes (value : Z) : list Z :=
  map (fun i => Z.land (Z.shiftr value (i * 8)) 255) (py_range 4).

(** [[f(x) for x in l]] stopping at the first exception *)
Fixpoint map_res {A B} (f : A -> res B) (l : list A) : res (list B) :=
  match l with
  | [] => Ok []
  | x :: l' => let* y := f x in let* ys := map_res f l' in Ok (y :: ys)
  end.

(** utilities.py:49-57; [len(data) / 4] is a float on Python 3, so range raises *)
Definition byteListToU32leList (py : pyver) (data : list Z) : res (list Z) :=
  match py with
  | Py3 => Err TypeError
  | Py2 =>
    map_res (fun i =>
      let* b0 := py_nth data (i * 4 + 0) in
      let* b1 := py_nth data (i * 4 + 1) in
      let* b2 := py_nth data (i * 4 + 2) in
      let* b3 := py_nth data (i * 4 + 3) in
      Ok (Z.lor (Z.lor (Z.lor b0 (Z.shiftl b1 8)) (Z.shiftl b2 16)) (Z.shiftl b3 24)))
      (py_range (Z.of_nat (List.length data) / 4))
  end.

(** utilities.py:59-67 *)
Definition u32leListToByteList (data : list Z) : list Z :=
  flat_map (fun x => [Z.land (Z.shiftr x 0) 255; Z.land (Z.shiftr x 8) 255;
                      Z.land (Z.shiftr x 16) 255; Z.land (Z.shiftr x 24) 255]) data.

(** utilities.py:69-74 *)
Definition u16leListToByteList (data : list Z) : list Z :=
  flat_map (fun h => [Z.land h 255; Z.land (Z.shiftr h 8) 255]) data.

(** utilities.py:76-81; [range(0, n, 2)] has (n+1)//2 elements *)
Definition byteListToU16leList (byteData : list Z) : res (list Z) :=
  map_res (fun k =>
    let i := 2 * k in
    let* b0 := py_nth byteData i in
    let* b1 := py_nth byteData (i + 1) in
    Ok (Z.lor b0 (Z.shiftl b1 8)))
    (py_range ((Z.of_nat (List.length byteData) + 1) / 2)).

(** utilities.py:83-91: [struct] is never imported *)
Definition u32BEToFloat32BE (data : Z) : res Z := Err NameError.
Definition float32beToU32be (data : Z) : res Z := Err NameError.

(** utilities.py:96-97 *)
Definition wmask (n : Z) : res Z := let* one := py_shl 1 n in Ok (one - 1).

(** utilities.py:121-134; arguments are tuples, lists, ints or (ignored) others *)
Inductive mask_arg := ATuple (msb lsb : Z) | AList (l : list Z) | AInt (n : Z) | AOther.

Definition set_bits (mask : Z) (l : list Z) : res Z :=
  fold_left (fun m b => let* m' := m in let* one := py_shl 1 b in Ok (Z.lor m' one)) l (Ok mask).

Definition mask_positions (a : mask_arg) : list Z :=
  match a with
  | ATuple msb lsb => map (fun k => lsb + k) (py_range (msb + 1 - lsb))
  | AList l => l
  | AInt n => [n]
  | AOther => []
  end.

Definition bitmask (args : list mask_arg) : res Z :=
  fold_left (fun m a => let* m' := m in set_bits m' (mask_positions a)) args (Ok 0).

(** utilities.py:137-138 *)
Definition invert32 (value : Z) : Z := Z.land 4294967295 (Z.lnot value).

(** utilities.py:142, 148: [lsb or msb] *)
Definition or_default (lsb : option Z) (msb : Z) : Z :=
  match lsb with None => msb | Some l => if l =? 0 then msb else l end.

(** utilities.py:141-144 *)
Definition bfx (value msb : Z) (lsb : option Z) : res Z :=
  let lsb := or_default lsb msb in
  let* mask := bitmask [ATuple msb lsb] in
  py_shr (Z.land value mask) lsb.

(** utilities.py:147-152 *)
Definition bfi (value field msb : Z) (lsb : option Z) : res Z :=
  let lsb := or_default lsb msb in
  let* mask := bitmask [ATuple msb lsb] in
  let value := Z.land value (Z.lnot mask) in
  let* f := py_shl field lsb in
  Ok (Z.lor value (Z.land f mask)).
