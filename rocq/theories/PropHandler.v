(** Property statements; each is proved in HandlerThms.v under the same name.
    Written by tools/genprops.py. *)
From Coq Require Import ZArith List Bool String Permutation.
From Verif Require Import PyBase BitstringModel InsnModel DecoderModel TableModel SpecBits SpecDecoder SpecHandlers HandlerThms.
Import ListNotations.
Local Open Scope list_scope.
Local Open Scope string_scope.

(** C76: a function that fills in instructions can be used for further encodings, if the
fields of their format are named as its parameters; with other fields decoding raises TypeError.
The order of the fields in the format does not matter. *)
Theorem C76_fields : forall py h i fs, NoDup (map fst fs) ->
  (~ fits h (map fst fs) -> call_handler py h i fs = Err TypeError) /\
  (fits h (map fst fs) -> exists args, map (fun n => dict_get String.eqb n fs) (signature h) = map Some args /\ call_handler py h i fs = snd (handler_of h) py i args) /\
  forall fs', Permutation fs fs' -> call_handler py h i fs' = call_handler py h i fs.
Proof. exact C76_fields_proof. Qed.
Print Assumptions C76_fields.

Example C76_fields_ex : let b := mkbs 3 5 7 in
  (forall py i, call_handler py H_adc i [("Rm", b)] = Err TypeError) /\ (forall py i, call_handler py H_adc i [("Rm", b); ("Rn", b)] = Err TypeError) /\
  (forall py i, call_handler py H_adc i [("Rm", b); ("Rdn", b); ("i", b)] = Err TypeError) /\ fits H_adc ["Rdn"; "Rm"].
Proof. split; [reflexivity|]. split; [reflexivity|]. split; [reflexivity|]. intros n. cbn [signature In]. tauto. Qed.

(** C76: so a format that does not name exactly the parameters makes a decoder all right; every
word of the format raises TypeError when it is decoded, and a format that does is decoded by the
function with the fields in the order of its parameters. *)
Theorem C76_misfit : forall h mnemonic k text kw fmt d py w a,
  parse_spec text = Ok fmt -> NoDup (names fmt) -> make_decoder h mnemonic k text None kw = Ok d -> (0 <= w < 2 ^ 16)%Z -> check d w = true ->
  (~ fits h (names fmt) -> decode_one call_handler py d w a = Err TypeError) /\
  (fits h (names fmt) -> exists vals args, w = encode vals fmt /\ map (fun n => dict_get String.eqb n (arguments vals fmt)) (signature h) = map Some args /\
    decode_one call_handler py d w a = snd (handler_of h) py (blank_insn k mnemonic w a false kw) args).
Proof. exact C76_misfit_proof. Qed.
Print Assumptions C76_misfit.

Example C76_misfit_ex : let f := make_decoder H_adc "and" BitOp in
  (exists d, f "010000 0000 Rm(3) Rn(3)" None [] = Ok d /\ check d 0x4008 = true /\ forall py a, decode_one call_handler py d 0x4008 a = Err TypeError) /\
  exists d i, f "010000 0000 Rdn(3) Rm(3)" None [] = Ok d /\ check d 0x4008 = true /\ decode_one call_handler Py3 d 0x4008 0 = Ok i /\ a_d (i_attrs i) = Some 1%Z /\ a_m (i_attrs i) = Some 0%Z.
Proof.
  split; [eexists; split; [vm_compute; reflexivity|]; split; [vm_compute; reflexivity|intros [|] a; reflexivity]|].
  eexists. eexists. split; [vm_compute; reflexivity|]. split; [vm_compute; reflexivity|]. split; [vm_compute; reflexivity|]. split; reflexivity.
Qed.

(** C76: the same for two halfwords. *)
Theorem C76_misfit32 : forall h mnemonic k text text2 kw fmt fmt2 d py w a,
  parse_spec text = Ok fmt -> parse_spec text2 = Ok fmt2 -> NoDup (names fmt ++ names fmt2) -> make_decoder h mnemonic k text (Some text2) kw = Ok d ->
  (0 <= w < 2 ^ 32)%Z -> check d w = true ->
  (~ fits h (names fmt ++ names fmt2) -> decode_one call_handler py d w a = Err TypeError) /\
  (fits h (names fmt ++ names fmt2) -> exists vals args, w = (encode vals fmt + 2 ^ 16 * encode vals fmt2)%Z /\
    map (fun n => dict_get String.eqb n (arguments vals fmt ++ arguments vals fmt2)) (signature h) = map Some args /\
    decode_one call_handler py d w a = snd (handler_of h) py (blank_insn k mnemonic w a true kw) args).
Proof. exact C76_misfit32_proof. Qed.
Print Assumptions C76_misfit32.

Example C76_misfit32_ex : exists d, make_decoder H_mul_t2 "mul" Multiply "111110110000 Rn(4)" (Some "1111 Rd(4) 0000 Ra(4)") [] = Ok d /\
  check d 0xf102fb01 = true /\ forall py a, decode_one call_handler py d 0xf102fb01 a = Err TypeError.
Proof. eexists; split; [vm_compute; reflexivity|]; split; [vm_compute; reflexivity|intros [|] a; reflexivity]. Qed.

(** C76: what the registration gives the object reaches these functions: the one for loads and
stores with an offset scales it by the size, and raises AttributeError if neither the class nor
the registration gives one. *)
Theorem C76_memsize : forall py i imm5 Rn Rt, wf imm5 -> (bw imm5 <= 30)%Z ->
  let r := call_handler py H_ldr_str_imm i [("imm5", imm5); ("Rn", Rn); ("Rt", Rt)] in
  match a_memsize (i_attrs i) with
  | None => r = Err AttributeError
  | Some m => exists j, r = Ok j /\ i_klass j = i_klass i /\ a_memsize (i_attrs j) = Some m /\ a_t (i_attrs j) = Some (bv Rt) /\ a_n (i_attrs j) = Some (bv Rn) /\
      a_imm32 (i_attrs j) = Some (bits 32 (bv imm5 * (if m =? 32 then 4 else if m =? 16 then 2 else 1)))
  end%Z.
Proof. exact C76_memsize_proof. Qed.
Print Assumptions C76_memsize.

Example C76_memsize_ex : wf (mkbs 5 3 31) /\ a_memsize (klass_attrs Load) = Some 32%Z /\ a_memsize (klass_attrs AddSub) = None /\
  exists d, make_decoder H_ldr_str_imm "add" AddSub "011 0 0 imm5(5) Rn(3) Rt(3)" None [] = Ok d /\ check d 0x6008 = true /\ forall py a, decode_one call_handler py d 0x6008 a = Err AttributeError.
Proof.
  split; [unfold wf; cbn [bw bv bm]; vm_compute; intuition discriminate|]. split; [reflexivity|]. split; [reflexivity|].
  eexists; split; [vm_compute; reflexivity|]; split; [vm_compute; reflexivity|intros [|] a; reflexivity].
Qed.
