(** Property statements; each is proved in DecThms.v under the same name.
    Written by tools/genprops.py. *)
From Coq Require Import Lia Permutation Sorted.
From Verif Require Import DecoderModel SpecBits SpecDecoder DecThms.

(** C23: a text that writes a sequence of items parses to that sequence. *)
Theorem C23_parse : forall items text, spelled items (chars text) -> parse_spec text = Ok items.
Proof. exact C23_parse_proof. Qed.
Print Assumptions C23_parse.

Example C23_parse_ex : spelled [FField "i" 1; FBit 1; FField "Rn" 4; FConst "M" (bits 2 2)] (chars " i 1Rn (4 ) M=10") /\
  parse_spec " i 1Rn (4 ) M=10" = Ok [FField "i" 1; FBit 1; FField "Rn" 4; FConst "M" (bits 2 2)].
Proof.
  split; [|reflexivity].
  assert (B : blank " ") by (left; reflexivity).
  assert (Bs : blanks [" "%char]) by (apply Forall_cons; [exact B | apply Forall_nil]).
  assert (B0 : blanks []) by apply Forall_nil.
  assert (L : letter "i" /\ letter "R" /\ letter "n" /\ letter "M" /\ decimal "4") by (unfold letter, decimal; cbn; lia).
  destruct L as [Li [LR [Ln [LM D4]]]].
  apply (spelled_name [" "%char] ["i"%char]); [exact Bs | split; [exact Li | apply Forall_nil] | exact B |].
  apply (spelled_bit [" "%char] "1"%char); [exact Bs | right; reflexivity |].
  apply (spelled_sized [] ["R"%char; "n"%char] [" "%char] [] ["4"%char] [" "%char]); try assumption.
  - split; [exact LR | apply Forall_cons; [left; exact Ln | apply Forall_nil]].
  - split; [discriminate | apply Forall_cons; [exact D4 | apply Forall_nil]].
  - apply (spelled_const [" "%char] ["M"%char] ["1"%char; "0"%char] [] []); [exact Bs | split; [exact LM | apply Forall_nil] | | exact I | apply spelled_nil; exact B0].
    split; [discriminate|]. apply Forall_cons; [right; reflexivity|]. apply Forall_cons; [left; reflexivity | apply Forall_nil].
Qed.

(** C23: any other text is either read as some items or rejected by ValueError. *)
Theorem C23_reject : forall text e, parse_spec text = Err e -> e = ValueError.
Proof. exact C23_reject_proof. Qed.
Print Assumptions C23_reject.

Example C23_reject_ex : parse_spec "a (x" = Err ValueError /\ parse_spec "01 ?" = Err ValueError.
Proof. split; reflexivity. Qed.

(** C24: a halfword written by a format passes the check, and the handler gets
the chosen field values. *)
Theorem C24_encode16 : forall (H : Type) (h : H) mnemonic k text kw fmt vals, 
  parse_spec text = Ok fmt -> total_size fmt = 16 -> NoDup (names fmt) ->
  exists d, make_decoder h mnemonic k text None kw = Ok d /\
    0 <= encode vals fmt < 2 ^ 16 /\ check d (encode vals fmt) = true /\
    forall call py a, decode_one call py d (encode vals fmt) a =
      call py h (blank_insn k mnemonic (encode vals fmt) a false kw) (arguments vals fmt).
Proof. exact C24_encode16_proof. Qed.
Print Assumptions C24_encode16.

Example C24_encode16_ex : parse_spec "000 11 I 0 imm3(3) Rn(3) Rd(3)" =
    Ok [FBit 0; FBit 0; FBit 0; FBit 1; FBit 1; FField "I" 1; FBit 0; FField "imm3" 3; FField "Rn" 3; FField "Rd" 3] /\
  encode (fun n => if String.eqb n "I" then 1 else if String.eqb n "imm3" then 5 else if String.eqb n "Rn" then 2 else 7)
    [FBit 0; FBit 0; FBit 0; FBit 1; FBit 1; FField "I" 1; FBit 0; FField "imm3" 3; FField "Rn" 3; FField "Rd" 3] = 7511.
Proof. split; reflexivity. Qed.

(** C24: the same for two halfwords; the first format gives the low half of the
word. *)
Theorem C24_encode32 : forall (H : Type) (h : H) mnemonic k text text2 kw fmt fmt2 vals, 
  parse_spec text = Ok fmt -> total_size fmt = 16 -> parse_spec text2 = Ok fmt2 -> total_size fmt2 = 16 ->
  NoDup (names fmt ++ names fmt2) ->
  exists d, make_decoder h mnemonic k text (Some text2) kw = Ok d /\
    let w := encode vals fmt + 2 ^ 16 * encode vals fmt2 in
    0 <= w < 2 ^ 32 /\ check d w = true /\
    forall call py a, decode_one call py d w a =
      call py h (blank_insn k mnemonic w a true kw) (arguments vals fmt ++ arguments vals fmt2).
Proof. exact C24_encode32_proof. Qed.
Print Assumptions C24_encode32.

Example C24_encode32_ex : exists fmt fmt2,
  parse_spec "11110 i 0 0010 S 1111" = Ok fmt /\ total_size fmt = 16 /\
  parse_spec "0 imm3(3) Rd(4) imm8(8)" = Ok fmt2 /\ total_size fmt2 = 16 /\
  names fmt ++ names fmt2 = ["i"; "S"; "imm3"; "Rd"; "imm8"]%string /\
  encode (fun _ => 1) fmt + 2 ^ 16 * encode (fun _ => 1) fmt2 = 285340767.
Proof. do 2 eexists. do 4 (split; [vm_compute; reflexivity|]). split; vm_compute; reflexivity. Qed.

(** C24: every halfword (word) that passes the check is written by the format for
some field values. *)
Theorem C24_only16 : forall (H : Type) (h : H) mnemonic k text kw fmt d w, 
  parse_spec text = Ok fmt -> NoDup (names fmt) -> make_decoder h mnemonic k text None kw = Ok d ->
  0 <= w < 2 ^ 16 -> check d w = true -> exists vals, w = encode vals fmt.
Proof. exact C24_only16_proof. Qed.
Print Assumptions C24_only16.

Example C24_only16_ex : exists d, make_decoder tt "adds" Instruction "000 11 I 0 imm3(3) Rn(3) Rd(3)" None [] = Ok d /\
  check d 7511 = true /\ check d 8023 = false.
Proof. eexists. split; [vm_compute; reflexivity|]. split; vm_compute; reflexivity. Qed.

Theorem C24_only32 : forall (H : Type) (h : H) mnemonic k text text2 kw fmt fmt2 d w, 
  parse_spec text = Ok fmt -> parse_spec text2 = Ok fmt2 -> NoDup (names fmt ++ names fmt2) ->
  make_decoder h mnemonic k text (Some text2) kw = Ok d ->
  0 <= w < 2 ^ 32 -> check d w = true -> exists vals, w = encode vals fmt + 2 ^ 16 * encode vals fmt2.
Proof. exact C24_only32_proof. Qed.
Print Assumptions C24_only32.

Example C24_only32_ex : exists d, make_decoder tt "mov" Instruction "11110 i 0 0010 S 1111" (Some "0 imm3(3) Rd(4) imm8(8)"%string) [] = Ok d /\
  check d 285340767 = true /\ check d 285406302 = false.
Proof. eexists. split; [vm_compute; reflexivity|]. split; vm_compute; reflexivity. Qed.

(** C24: a format of any other size is rejected, in either half. *)
Theorem C24_size : forall (H : Type) (h : H) mnemonic k text text2 kw fmt fmt2, 
  parse_spec text = Ok fmt -> parse_spec text2 = Ok fmt2 ->
  (total_size fmt <> 16 -> make_decoder h mnemonic k text None kw = Err AssertionError) /\
  (total_size fmt <> 16 \/ total_size fmt2 <> 16 -> make_decoder h mnemonic k text (Some text2) kw = Err AssertionError).
Proof. exact C24_size_proof. Qed.
Print Assumptions C24_size.

Example C24_size_ex : make_decoder tt "x" Instruction "0000 0000 a(7)" None [] = Err AssertionError /\
  make_decoder tt "x" Instruction "0000 0000 a(8)" (Some "0000 0000 a(9)"%string) [] = Err AssertionError.
Proof. split; reflexivity. Qed.

(** C25: searching a tree gives the result of the first decoder, in priority
order, that matches and does not decline; if there is none it raises. *)
Theorem C25_tree : forall (H : Type) call (ds : list (decoder H)) t py w a l o,
  Forall made ds -> build ds = Ok t ->
  (priority_order (filter (fun d => negb (d_is32 d)) ds) l -> first_of call py w a l o ->
   match o with
   | Some r => snd (tree_decode call py (t_16 t) w a) = r
   | None => snd (tree_decode call py (t_16 t) w a) = Err UndefinedInstructionError \/
             snd (tree_decode call py (t_16 t) w a) = Err AttributeError
   end) /\
  (priority_order (filter d_is32 ds) l -> first_of call py w a l o ->
   match o with
   | Some r => snd (tree_decode call py (t_32 t) w a) = r
   | None => snd (tree_decode call py (t_32 t) w a) = Err UndefinedInstructionError \/
             snd (tree_decode call py (t_32 t) w a) = Err AttributeError
   end).
Proof. exact C25_tree_proof. Qed.
Print Assumptions C25_tree.

Example C25_tree_ex : exists d1 d2 t,
  make_decoder 1 "one" Instruction "0000 0000 a(8)" None [] = Ok d1 /\
  make_decoder 2 "two" Instruction "0000 0000 0000 a(4)" None [] = Ok d2 /\ build [d1; d2] = Ok t /\
  let call := fun (_ : pyver) (h : Z) (i : insn) (_ : list (string * bs)) => if h =? 2 then Err DecodeError else Ok i in
  weight d1 = 8 /\ weight d2 = 12 /\
  (exists i, snd (tree_decode call Py3 (t_16 t) 5 0) = Ok i /\ i_mnemonic i = "one"%string) /\
  snd (tree_decode call Py3 (t_16 t) 256 0) = Err UndefinedInstructionError.
Proof.
  do 3 eexists. do 3 (split; [vm_compute; reflexivity|]). cbv zeta. do 2 (split; [reflexivity|]).
  split; [eexists; split; reflexivity | reflexivity].
Qed.

(** C25: such an order and such a result always exist, for every word. *)
Theorem C25_total : forall (H : Type) call (ds : list (decoder H)) py w a, Forall made ds ->
  exists l o, priority_order ds l /\ first_of call py w a l o.
Proof. exact C25_total_proof. Qed.
Print Assumptions C25_total.

Example C25_total_ex : exists d, make_decoder 1 "one" Instruction "0000 0000 a(8)" None [] = Ok d /\ weight d = 8.
Proof. eexists. split; [vm_compute; reflexivity | vm_compute; reflexivity]. Qed.

(** C26: building terminates for every list of decoders: the tree does not
depend on how much more fuel is given than the number of decoders. *)
Theorem C26_build : forall (H : Type) (ds : list (decoder H)), Forall made ds ->
  (exists t, build ds = Ok t) /\
  exists t, forall fuel, (List.length ds < fuel)%nat -> build_tree fuel ds = Ok t.
Proof. exact C26_build_proof. Qed.
Print Assumptions C26_build.

Example C26_build_ex : exists d1 d2 t, 
  make_decoder 1 "one" Instruction "0000 0000 a(8)" None [] = Ok d1 /\
  make_decoder 2 "two" Instruction "0001 0000 0000 a(4)" None [] = Ok d2 /\ build [d1; d2] = Ok t /\
  t_16 t = Node 65280 [(4096, Leaf [d2]); (0, Leaf [d1])].
Proof. do 3 eexists. do 3 (split; [vm_compute; reflexivity|]). vm_compute; reflexivity. Qed.

(** C27: the outcome depends only on the bytes of the instruction. *)
Theorem C27_frame : forall (H : Type) (call : pyver -> H -> insn -> list (string * bs) -> res insn) py t b0 b1 rest rest' a,
  0 <= b0 < 256 -> 0 <= b1 < 256 ->
  (~ In (b1 / 8) [29; 30; 31] -> decode call py t (b0 :: b1 :: rest) a = decode call py t (b0 :: b1 :: rest') a) /\
  (In (b1 / 8) [29; 30; 31] -> forall b2 b3, 
    decode call py t (b0 :: b1 :: b2 :: b3 :: rest) a = decode call py t (b0 :: b1 :: b2 :: b3 :: rest') a).
Proof. exact C27_frame_proof. Qed.
Print Assumptions C27_frame.

Example C27_frame_ex : ~ In (191 / 8) [29; 30; 31] /\ In (240 / 8) [29; 30; 31].
Proof. split; cbv; intuition discriminate. Qed.

(** C27: which tree is asked about which word. *)
Theorem C27_word : forall (H : Type) (call : pyver -> H -> insn -> list (string * bs) -> res insn) py t b0 b1 rest a,
  0 <= b0 < 256 -> 0 <= b1 < 256 ->
  (~ In (b1 / 8) [29; 30; 31] ->
   snd (decode call py t (b0 :: b1 :: rest) a) = snd (tree_decode call py (t_16 t) (b0 + 256 * b1) a)) /\
  (In (b1 / 8) [29; 30; 31] -> forall b2 b3, 0 <= b2 < 256 -> 0 <= b3 < 256 ->
   snd (decode call py t (b0 :: b1 :: b2 :: b3 :: rest) a) =
   snd (tree_decode call py (t_32 t) (b0 + 256 * b1 + 65536 * b2 + 16777216 * b3) a)).
Proof. exact C27_word_proof. Qed.
Print Assumptions C27_word.

Example C27_word_ex : In (240 / 8) [29; 30; 31] /\ 2 + 256 * 240 + 65536 * 3 + 16777216 * 128 = 2147741698.
Proof. split; [cbv; auto | reflexivity]. Qed.

(** C27: too few bytes raise. *)
Theorem C27_short : forall (H : Type) (call : pyver -> H -> insn -> list (string * bs) -> res insn) py t a b0 b1,
  0 <= b0 < 256 -> 0 <= b1 < 256 -> 
  snd (decode call py t [] a) = Err AssertionError /\
  snd (decode call py t [b0] a) = Err AssertionError /\
  (In (b1 / 8) [29; 30; 31] -> snd (decode call py t [b0; b1] a) = Err UndefinedInstructionError /\
   forall b2, snd (decode call py t [b0; b1; b2] a) = Err UndefinedInstructionError).
Proof. exact C27_short_proof. Qed.
Print Assumptions C27_short.

Example C27_short_ex : In (247 / 8) [29; 30; 31] /\ In (232 / 8) [29; 30; 31].
Proof. split; cbv; auto. Qed.

(** C29: whatever was decoded before, on either Python version, a decode gives the
same result. *)
Theorem C29_history : forall (H : Type) (call : pyver -> H -> insn -> list (string * bs) -> res insn) t calls py data a,
  snd (decode call py (after call t calls) data a) = snd (decode call py t data a).
Proof. exact C29_history_proof. Qed.
Print Assumptions C29_history.

Example C29_history_ex : exists d1 d2 t,
  make_decoder 1 "one" Instruction "0000 0000 a(8)" None [] = Ok d1 /\
  make_decoder 2 "two" Instruction "0001 0000 0000 a(4)" None [] = Ok d2 /\ build [d1; d2] = Ok t /\
  let call := fun (_ : pyver) (h : Z) (i : insn) (_ : list (string * bs)) => Ok i in
  after call t [(Py3, [0; 32], 0)] <> t /\
  snd (decode call Py3 (after call t [(Py3, [0; 32], 0)]) [0; 32] 0) = Err AttributeError.
Proof. do 3 eexists. do 3 (split; [vm_compute; reflexivity|]). split; [discriminate | reflexivity]. Qed.
