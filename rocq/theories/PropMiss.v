(** Property statements; each is proved in MissThms.v under the same name.
    Written by tools/genprops.py. *)
From Coq Require Import Lia Permutation Sorted.
From Verif Require Import DecoderModel TableModel SpecBits SpecDecoder SpecIsa SpecMiss MissThms.

(** C25: which exception it is when no decoder takes the word. *)
Theorem C25_miss : forall (H : Type) call (ds : list (decoder H)) t py w a l e,
  Forall made ds -> build ds = Ok t ->
  (priority_order (filter (fun d => negb (d_is32 d)) ds) l -> first_of call py w a l None ->
   (snd (tree_decode call py (t_16 t) w a) = Err e <-> gives_up w (map fixed_of l) e)) /\
  (priority_order (filter d_is32 ds) l -> first_of call py w a l None ->
   (snd (tree_decode call py (t_32 t) w a) = Err e <-> gives_up w (map fixed_of l) e)).
Proof. exact C25_miss_proof. Qed.
Print Assumptions C25_miss.

Example C25_miss_ex : exists d1 d2 t,
  make_decoder 1 "one" Instruction "0000 0000 a(8)" None [] = Ok d1 /\
  make_decoder 2 "two" Instruction "0000 0001 0000 a(4)" None [] = Ok d2 /\ build [d1; d2] = Ok t /\
  let call := fun (_ : pyver) (h : Z) (i : insn) (_ : list (string * bs)) => Ok i in
  snd (tree_decode call Py3 (t_16 t) 512 0) = Err AttributeError /\ gives_up 512 (map fixed_of [d2; d1]) AttributeError /\
  snd (tree_decode call Py3 (t_16 t) 288 0) = Err UndefinedInstructionError.
Proof.
  do 3 eexists. do 3 (split; [vm_compute; reflexivity|]). cbv zeta. split; [reflexivity|]. split; [|reflexivity].
  match goal with |- gives_up _ ?l _ => replace l with [(65520, 256); (65280, 0)] by (vm_compute; reflexivity) end.
  apply (up_none 512 _ 65280).
  - split; [discriminate|]. split.
    + intros k. split.
      * intros K. split; [destruct (Z.ltb_spec k 0) as [N|N]; [rewrite Z.testbit_neg_r in K by exact N; discriminate K|exact N]|].
        intros p [<-|[<-|[]]]; [|exact K]. cbn [fst]. change 65520 with (Z.lor 65280 240). rewrite Z.lor_spec, K. reflexivity.
      * intros [_ A]. apply (A (65280, 0)). right. left. reflexivity.
    + eexists. eexists. split; [left; reflexivity|]. split; [right; left; reflexivity|]. discriminate.
  - intros p [<-|[<-|[]]]; discriminate.
Qed.

(** C31: which exception it is for a halfword that has no row. *)
Theorem C31_undefined16 : forall t py a b0 b1 rest e, DECODER_TREE = Ok t ->
  0 <= b0 < 256 -> 0 <= b1 < 256 -> ~ In (b1 / 8) [29; 30; 31] -> row_for isa16 (b0 + 256 * b1) = None ->
  (snd (decode call_handler py t (b0 :: b1 :: rest) a) = Err e <->
   gives_up (b0 + 256 * b1) (map (fun r => fixed_in (r_text r)) isa16) e).
Proof. exact C31_undefined16_proof. Qed.
Print Assumptions C31_undefined16.

Example C31_undefined16_ex : row_for isa16 (0 + 256 * 184) = None /\ decode_bytes Py3 [0; 184] 0 = Err AttributeError.
Proof. split; vm_compute; reflexivity. Qed.

(** C31: and for a 32-bit word. *)
Theorem C31_undefined32 : forall t py a b0 b1 b2 b3 rest e, DECODER_TREE = Ok t ->
  0 <= b0 < 256 -> 0 <= b1 < 256 -> 0 <= b2 < 256 -> 0 <= b3 < 256 -> In (b1 / 8) [29; 30; 31] ->
  let w := b0 + 256 * b1 + 65536 * b2 + 16777216 * b3 in
  row_for isa32 w = None ->
  (snd (decode call_handler py t (b0 :: b1 :: b2 :: b3 :: rest) a) = Err e <->
   gives_up w (map (fun r => fixed_in (r_text r)) isa32) e).
Proof. exact C31_undefined32_proof. Qed.
Print Assumptions C31_undefined32.

Example C31_undefined32_ex : row_for isa32 (255 + 256 * 255 + 65536 * 255 + 16777216 * 255) = None /\
  exists e, decode_bytes Py3 [255; 255; 255; 255] 0 = Err e.
Proof. split; [vm_compute; reflexivity|]. eexists. vm_compute. reflexivity. Qed.
