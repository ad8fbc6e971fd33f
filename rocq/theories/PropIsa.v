(** Property statements; each is proved in IsaThms.v under the same name.
    Written by tools/genprops.py. *)
From Coq Require Import Lia Permutation.
From Verif Require Import TableModel SpecBits SpecArm SpecDecoder SpecIsa IsaThms.

(** C31: the instruction set builds. *)
Theorem C31_builds : exists t, DECODER_TREE = Ok t.
Proof. exact C31_builds_proof. Qed.
Print Assumptions C31_builds.

(** C31: every halfword is decoded as the row of the encoding table that counts for
it says; a halfword without a row is reported as undefined (or, the defect of C28,
by AttributeError). *)
Theorem C31_decode16 : forall t py a b0 b1 rest, DECODER_TREE = Ok t ->
  0 <= b0 < 256 -> 0 <= b1 < 256 -> ~ In (b1 / 8) [29; 30; 31] ->
  match row_for isa16 (b0 + 256 * b1) with
  | Some r => snd (decode call_handler py t (b0 :: b1 :: rest) a) =
              decoded false (b0 + 256 * b1) a (observed py r (b0 + 256 * b1))
  | None => snd (decode call_handler py t (b0 :: b1 :: rest) a) = Err UndefinedInstructionError \/
            snd (decode call_handler py t (b0 :: b1 :: rest) a) = Err AttributeError
  end.
Proof. exact C31_decode16_proof. Qed.
Print Assumptions C31_decode16.

Example C31_decode16_ex : option_map (fun r => documented r 6738) (row_for isa16 6738) = 
  Some (Gives "subs" AddSub [D 2; N 2; M 1; Flags NotInITBlock; Carry false; Sub true]
    [SpecIsa.R 2; SpecIsa.R 2; SpecIsa.R 1]).
Proof. vm_compute. reflexivity. Qed.
Example C31_decode16_none_ex : row_for isa16 47104 = None.
Proof. reflexivity. Qed.

(** C31: the same for 32-bit instructions. *)
Theorem C31_decode32 : forall t py a b0 b1 b2 b3 rest, DECODER_TREE = Ok t ->
  0 <= b0 < 256 -> 0 <= b1 < 256 -> 0 <= b2 < 256 -> 0 <= b3 < 256 -> In (b1 / 8) [29; 30; 31] ->
  let w := b0 + 256 * b1 + 65536 * b2 + 16777216 * b3 in
  match row_for isa32 w with
  | Some r => snd (decode call_handler py t (b0 :: b1 :: b2 :: b3 :: rest) a) =
              decoded true w a (observed py r w)
  | None => snd (decode call_handler py t (b0 :: b1 :: b2 :: b3 :: rest) a) = Err UndefinedInstructionError \/
            snd (decode call_handler py t (b0 :: b1 :: b2 :: b3 :: rest) a) = Err AttributeError
  end.
Proof. exact C31_decode32_proof. Qed.
Print Assumptions C31_decode32.

Example C31_decode32_ex : option_map (fun r => documented r 4160942080) (row_for isa32 4160942080) = 
  Some (Gives "bl" Branch [Link true; Cond 15; Delta 0; Imm 4] [LabelOp 4]).
Proof. vm_compute. reflexivity. Qed.

(** C31: outside the ten deviating encodings the outcome is the documented one. *)
Theorem C31_documented : forall py r w, In r (isa16 ++ isa32) -> ~ In (r_text r) deviating ->
  observed py r w = documented r w.
Proof. exact C31_documented_proof. Qed.
Print Assumptions C31_documented.

Example C31_documented_ex : List.length (filter (fun r => negb (existsb (String.eqb (r_text r)) deviating)) (isa16 ++ isa32)) = 112%nat.
Proof. vm_compute. reflexivity. Qed.

(** C31, refuted for the ten deviating encodings; one word for each kind of deviation:
cmp r1, r2 compares r1 with itself; b with a negative offset keeps the complement of
the offset; push.w {r0, r1} raises NameError; mov.w r0, r1 is called movs.w on
Python 3. *)
Theorem C31_refuted :
  (exists i, decode_bytes Py3 [145; 66] 0 = Ok i /\ option_map (fun r => documented r 17041) (row_for isa16 17041) =
    Some (Gives "cmp" Compare [N 1; M 2; Neg true] [SpecIsa.R 1; SpecIsa.R 2]) /\ a_m (i_attrs i) = Some 1) /\
  (exists i, decode_bytes Py3 [252; 231] 0 = Ok i /\ option_map (fun r => documented r 59388) (row_for isa16 59388) =
    Some (Gives "b" Branch [Link false; Cond 15; Delta 0; Imm (-8)] [LabelOp (-8)]) /\
    a_imm32 (i_attrs i) = Some (bits 32 7)) /\
  (decode_bytes Py3 [45; 233; 3; 0] 0 = Err NameError /\ option_map (fun r => documented r 256301) (row_for isa32 256301) =
    Some (Gives "push.w" Push [Regs 3] [RL 3])) /\
  (exists i, decode_bytes Py3 [79; 234; 1; 0] 0 = Ok i /\ option_map (fun r => documented r 125519) (row_for isa32 125519) =
    Some (Gives "mov.w" Move [D 0; M 1; Flags Never; Neg false] [SpecIsa.R 0; SpecIsa.R 1]) /\
    i_mnemonic i = "movs.w"%string).
Proof. exact C31_refuted_proof. Qed.
Print Assumptions C31_refuted.

(** C28: decoding two or more bytes returns an instruction or raises
UndefinedInstructionError, UnpredictableError, AttributeError (a word without a row)
or NameError, the last only for push.w. *)
Theorem C28_errors_partial : forall py data a, bytes data -> (2 <= List.length data)%nat ->
  (exists i, decode_bytes py data a = Ok i) \/
  decode_bytes py data a = Err UndefinedInstructionError \/
  decode_bytes py data a = Err UnpredictableError \/
  decode_bytes py data a = Err AttributeError \/
  (decode_bytes py data a = Err NameError /\
   exists b2 b3 rest, data = 45 :: 233 :: b2 :: b3 :: rest /\ Z.testbit b3 7 = false /\ Z.testbit b3 5 = false).
Proof. exact C28_errors_partial_proof. Qed.
Print Assumptions C28_errors_partial.

Example C28_errors_ex : bytes [0; 191] /\ exists i, decode_bytes Py3 [0; 191] 0 = Ok i.
Proof. split; [repeat constructor; lia | eexists; vm_compute; reflexivity]. Qed.

(** C28: a word that has a row does not raise AttributeError, and raises
UndefinedInstructionError never. *)
Theorem C28_row : forall py a b0 b1 rest r, 0 <= b0 < 256 -> 0 <= b1 < 256 -> ~ In (b1 / 8) [29; 30; 31] ->
  row_for isa16 (b0 + 256 * b1) = Some r ->
  (exists i, decode_bytes py (b0 :: b1 :: rest) a = Ok i) \/ decode_bytes py (b0 :: b1 :: rest) a = Err UnpredictableError.
Proof. exact C28_row_proof. Qed.
Print Assumptions C28_row.

Example C28_row_ex : option_map r_text (row_for isa16 (0 + 256 * 191)) = Some "1011111100000000"%string /\ ~ In (191 / 8) [29; 30; 31].
Proof. split; [vm_compute; reflexivity|]. cbn. intuition discriminate. Qed.

(** C28, refuted: the halfword 0xb800, which no row decodes, raises AttributeError
instead of UndefinedInstructionError, and push.w {r0, r1} raises NameError. *)
Theorem C28_refuted : exists data data', bytes data /\ bytes data' /\
  (2 <= List.length data)%nat /\ (2 <= List.length data')%nat /\
  (forall py, decode_bytes py data 0 = Err AttributeError) /\ (forall py, decode_bytes py data' 0 = Err NameError).
Proof. exact C28_refuted_proof. Qed.
Print Assumptions C28_refuted.

(** C25, refuted: the tree of the built-in instruction set answers a word for which
no decoder is tried with AttributeError instead of UndefinedInstructionError. *)
Theorem C25_undefined_refuted : exists t w, DECODER_TREE = Ok t /\ row_for isa16 w = None /\
  forall py, snd (tree_decode call_handler py (t_16 t) w 0) = Err AttributeError.
Proof. exact C25_undefined_refuted_proof. Qed.
Print Assumptions C25_undefined_refuted.

(** C30: a decoded instruction has the bytes it was decoded from and the address it
was given, and is two or four bytes long according to its first halfword (C27). *)
Theorem C30_bytes : forall py data a i, bytes data -> decode_bytes py data a = Ok i ->
  i_bytes i = firstn (Z.to_nat (i_size i)) data /\ i_address i = a /\
  i_size i = (if in_dec Z.eq_dec (nth 1 data 0 / 8) [29; 30; 31] then 4 else 2) /\
  i_size i <= Z.of_nat (List.length data).
Proof. exact C30_bytes_proof. Qed.
Print Assumptions C30_bytes.

Example C30_bytes_ex : exists i, decode_bytes Py3 [0; 240; 3; 248; 1] 100 = Ok i /\ i_size i = 4 /\ i_bytes i = [0; 240; 3; 248].
Proof. eexists. split; [vm_compute; reflexivity|]. split; vm_compute; reflexivity. Qed.

(** C26: whatever the order in which the built-in decoders are registered, the tree
can be built and decodes every byte string in the same way. *)
Theorem C26_order : forall ds ds' t, DECODERS = Ok ds -> Permutation ds ds' -> DECODER_TREE = Ok t ->
  exists t', build ds' = Ok t' /\ forall py data a, bytes data ->
    snd (decode call_handler py t' data a) = snd (decode call_handler py t data a).
Proof. exact C26_order_proof. Qed.
Print Assumptions C26_order.

Example C26_order_ex : exists ds, DECODERS = Ok ds /\ List.length ds = 122%nat /\ Permutation ds (rev ds).
Proof. eexists. split; [vm_compute; reflexivity|]. split; [reflexivity | apply Permutation_rev]. Qed.
