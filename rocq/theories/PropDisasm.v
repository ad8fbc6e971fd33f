(** Property statements; each is proved in DisasmThms.v under the same name.
    Written by tools/genprops.py. *)
From Coq Require Import Lia.
From Verif Require Import DisasmModel SpecBits SpecDecoder SpecIsa SpecWhole SpecDisasm DisasmThms.

(** C32: disassembling bytes gives exactly their listing, whatever was decoded before, and
leaves the decoder as usable as it was. *)
Theorem C32_listing : forall py t data a, bytes data -> module_tree t ->
  let '(t', l, r) := disasm py t data a in module_tree t' /\ listing py a data l r.
Proof. exact C32_listing_proof. Qed.
Print Assumptions C32_listing.

Example C32_listing_ex : match DECODER_TREE with
  | Ok t => let '(_, l, r) := disasm Py2 t [0; 191; 0; 240; 3; 248; 17; 43; 0; 240] 100 in
      map (fun i => (i_mnemonic i, i_address i)) l = [("nop", 100); ("bl", 102); ("cmp", 106)]%string /\ r = Ok tt
  | Err _ => False
  end.
Proof. vm_compute. split; reflexivity. Qed.

(** C32: there is only one listing, so the listing determines what is produced. *)
Theorem C32_unique : forall py a data l r l' r', listing py a data l r -> listing py a data l' r' -> l = l' /\ r = r'.
Proof. exact C32_unique_proof. Qed.
Print Assumptions C32_unique.

Example C32_unique_ex : exists i, decode_bytes Py2 [0; 191; 0; 240] 100 = Ok i /\ listing Py2 100 [0; 191; 0; 240] [i] (Ok tt).
Proof.
  eexists. split; [vm_compute; reflexivity|]. apply listing_step; [vm_compute; reflexivity|].
  apply listing_rest; [discriminate|vm_compute; reflexivity|]. apply le_n_S, le_n_S, le_n_S, le_0_n.
Qed.

(** C32: a listing partitions the data: its instructions are consecutive from the start
address, their bytes are the beginning of the data, and each is what decode returns
for the data from its place on; what is left is the rest after the last one. *)
Theorem C32_partition : forall py a data l r, bytes data -> listing py a data l r ->
  let n := Z.to_nat (sizes l) in
  consecutive a l /\ flat_map i_bytes l = firstn n data /\ sizes l <= Z.of_nat (List.length data) /\
  (forall k i, nth_error l k = Some i -> let m := sizes (firstn k l) in
    decode_bytes py (skipn (Z.to_nat m) data) (a + m) = Ok i) /\
  listing py (a + sizes l) (skipn n data) [] r.
Proof. exact C32_partition_proof. Qed.
Print Assumptions C32_partition.

Example C32_partition_ex : exists i, decode_bytes Py2 [0; 191; 0; 240] 100 = Ok i /\ listing Py2 100 [0; 191; 0; 240] [i] (Ok tt) /\
  sizes [i] = 2 /\ flat_map i_bytes [i] = [0; 191].
Proof.
  destruct C32_unique_ex as (i & D & L). exists i. split; [exact D|]. split; [exact L|]. vm_compute in D. injection D as <-. split; reflexivity.
Qed.

(** C32: the generator is lazy, and what others decode between two calls of next does not
matter: the n-th call gives the n-th instruction of the listing, then its end. *)
Theorem C32_interleaved : forall py t data a l r others, bytes data -> module_tree t -> listing py a data l r ->
  pulls py t (disasm_start data a) others = expected l r (List.length others).
Proof. exact C32_interleaved_proof. Qed.
Print Assumptions C32_interleaved.

Example C32_interleaved_ex : match DECODER_TREE, decode_bytes Py2 [0; 191; 0; 240] 100 with
  | Ok t, Ok i => pulls Py2 t (disasm_start [0; 191; 0; 240] 100) [[(Py3, [0; 184], 0)]; []; [(Py2, [1; 40], 8)]] = [Yields i; Stops; Stops]
  | _, _ => False
  end.
Proof. vm_compute. reflexivity. Qed.

(** C33: how a disassembly ends. It ends normally exactly when the data is used up or the
rest is shorter than four bytes and undefined; a rest that is undefined and not shorter
raises UndefinedInstructionError; any other exception is the decoder's. *)
Theorem C33_end : forall py a data l r, bytes data -> listing py a data l r ->
  let rest := skipn (Z.to_nat (sizes l)) data in let b := a + sizes l in
  match r with
  | Ok _ => rest = [] \/ (2 <= List.length rest < 4)%nat /\ decode_bytes py rest b = Err UndefinedInstructionError
  | Err e => rest <> [] /\ decode_bytes py rest b = Err e /\
      (e = UndefinedInstructionError /\ (4 <= List.length rest)%nat \/ e = AssertionError /\ List.length rest = 1%nat \/
       (e = UnpredictableError \/ e = AttributeError \/ e = NameError) /\ (2 <= List.length rest)%nat)
  end.
Proof. exact C33_end_proof. Qed.
Print Assumptions C33_end.

Example C33_end_ex : match DECODER_TREE with
  | Ok t =>
    (let '(_, l, r) := disasm Py2 t [0; 191; 0; 182; 0; 191] 0 in map i_mnemonic l = ["nop"]%string /\ r = Err UndefinedInstructionError) /\
    (let '(_, l, r) := disasm Py2 t [0; 191; 0; 191; 0; 182] 0 in map i_mnemonic l = ["nop"; "nop"]%string /\ r = Ok tt)
  | Err _ => False
  end.
Proof. vm_compute. repeat split; reflexivity. Qed.

(** C33: disassembly can be continued at any instruction boundary: if the first part is
used up exactly by its instructions, the whole gives these followed by what the second
part gives at the advanced address. *)
Theorem C33_append : forall py a data l data' l' r, bytes data -> bytes data' ->
  listing py a data l (Ok tt) -> sizes l = Z.of_nat (List.length data) ->
  listing py (a + sizes l) data' l' r -> listing py a (data ++ data') (l ++ l') r.
Proof. exact C33_append_proof. Qed.
Print Assumptions C33_append.

Example C33_append_ex : exists i j, decode_bytes Py2 [0; 191] 100 = Ok i /\ decode_bytes Py2 [17; 43; 0] 102 = Ok j /\
  listing Py2 100 [0; 191] [i] (Ok tt) /\ sizes [i] = 2 /\ listing Py2 102 [17; 43; 0] [j] (Err AssertionError).
Proof.
  eexists. eexists. split; [vm_compute; reflexivity|]. split; [vm_compute; reflexivity|].
  split; [apply listing_step; [vm_compute; reflexivity|apply listing_end]|]. split; [reflexivity|].
  apply listing_step; [vm_compute; reflexivity|]. apply listing_fails; [discriminate|vm_compute; reflexivity|discriminate].
Qed.

(** C33: data that ends with the first two or three bytes of a 32-bit instruction is
disassembled without an exception up to there. *)
Theorem C33_truncated : forall py a data l b0 b1 more, bytes (b0 :: b1 :: more) -> In (b1 / 8) [29; 30; 31] -> (List.length more <= 1)%nat ->
  bytes data -> listing py a data l (Ok tt) -> sizes l = Z.of_nat (List.length data) ->
  listing py a (data ++ b0 :: b1 :: more) l (Ok tt).
Proof. exact C33_truncated_proof. Qed.
Print Assumptions C33_truncated.

Example C33_truncated_ex : In (247 / 8) [29; 30; 31] /\ exists i, decode_bytes Py2 [0; 191] 0 = Ok i /\ listing Py2 0 [0; 191] [i] (Ok tt) /\ sizes [i] = 2.
Proof.
  split; [right; left; reflexivity|]. eexists. split; [vm_compute; reflexivity|].
  split; [apply listing_step; [vm_compute; reflexivity|apply listing_end]|reflexivity].
Qed.

(** C33: refuted: one byte after a complete instruction raises AssertionError, and an
undefined halfword in the middle may raise AttributeError. *)
Theorem C33_refuted : exists data data', bytes data /\ bytes data' /\ forall py, 
  (exists l, listing py 0 data l (Err AssertionError) /\ sizes l = 2 /\ List.length data = 3%nat) /\
  (exists l, listing py 0 data' l (Err AttributeError) /\ sizes l = 2 /\ List.length data' = 8%nat).
Proof. exact C33_refuted_proof. Qed.
Print Assumptions C33_refuted.
