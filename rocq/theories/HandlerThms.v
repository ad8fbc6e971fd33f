(** * Proofs about the functions that fill in instructions *)
From Coq Require Import ZArith List Lia Bool String Permutation.
From Verif Require Import PyBase BitstringModel InsnModel DecoderModel TableModel SpecDecoder SpecBits BitThms SpecHandlers DecThms.
Import ListNotations.
Local Open Scope list_scope.
Local Open Scope string_scope.

(*@imports
From Coq Require Import ZArith List Bool String Permutation.
From Verif Require Import PyBase BitstringModel InsnModel DecoderModel TableModel SpecBits SpecDecoder SpecHandlers HandlerThms.
Import ListNotations.
Local Open Scope list_scope.
Local Open Scope string_scope.
@*)

Lemma sign : forall h, fst (handler_of h) = signature h.
Proof. intros h. destruct h; reflexivity. Qed.
Lemma sign_nodup : forall h, NoDup (signature h).
Proof. intros h. destruct h; cbn [signature]; repeat constructor; cbn [In]; intuition discriminate. Qed.
Lemma get_in : forall V (fs : list (string * V)) n, (exists v, dict_get String.eqb n fs = Some v) <-> In n (map fst fs).
Proof.
  intros V fs n. induction fs as [|[k v] fs IH]; cbn [dict_get map fst In]; [split; [intros [v E]; discriminate E|intros []]|].
  destruct (String.eqb_spec n k) as [E|E]; [subst k; split; [now left|intros _; now exists v]|]. rewrite IH. split; [now right|]. intros [X|X]; [now subst k|exact X].
Qed.
Lemma get_perm : forall V (fs fs' : list (string * V)) n, Permutation fs fs' -> NoDup (map fst fs) -> dict_get String.eqb n fs = dict_get String.eqb n fs'.
Proof.
  intros V fs fs' n P. induction P as [|[k v] l l' P IH|[k v] [k' v'] l|l l' l'' P IH P' IH']; intros D; cbn [dict_get map fst] in *.
  - reflexivity.
  - inversion D as [|x y D1 D2]. now rewrite IH.
  - inversion D as [|x y D1 D2]. destruct (String.eqb_spec n k) as [E|E], (String.eqb_spec n k') as [E'|E']; try reflexivity.
    exfalso. apply D1. left. congruence.
  - rewrite IH by exact D. apply IH'. apply (Permutation_NoDup (l := map fst l)); [now apply Permutation_map|exact D].
Qed.
Lemma all_some_in : forall A (l : list (option A)) r, all_some l = Some r -> l = map Some r.
Proof.
  intros A l. induction l as [|[x|] l IH]; intros r E; cbn [all_some] in E; [now injection E as <-| |discriminate E].
  destruct (all_some l) as [r'|]; [|discriminate E]. injection E as <-. cbn [map]. now rewrite (IH r').
Qed.
Lemma all_some_ok : forall A (l : list (option A)), (forall x, In x l -> x <> None) -> exists r, all_some l = Some r.
Proof.
  intros A l. induction l as [|[x|] l IH]; intros H; cbn [all_some]; [now exists []| |exfalso; apply (H None); [now left|reflexivity]].
  destruct IH as [r ->]; [intros y Y; apply H; now right|]. now eexists.
Qed.

(*@doc C76: a function that fills in instructions can be used for further encodings, if the
fields of their format are named as its parameters; with other fields decoding raises TypeError.
The order of the fields in the format does not matter. @*)
Lemma C76_fields_proof : forall py h i fs, NoDup (map fst fs) ->
  (~ fits h (map fst fs) -> call_handler py h i fs = Err TypeError) /\
  (fits h (map fst fs) -> exists args, map (fun n => dict_get String.eqb n fs) (signature h) = map Some args /\ call_handler py h i fs = snd (handler_of h) py i args) /\
  forall fs', Permutation fs fs' -> call_handler py h i fs' = call_handler py h i fs.
Proof.
  intros py h i fs D. pose proof (sign h) as S. pose proof (sign_nodup h) as N. unfold call_handler. destruct (handler_of h) as [ps body]. cbn [fst snd] in *. subst ps.
  split; [|split].
  - intros F. destruct (all_some _) as [args|] eqn:E; [|reflexivity]. destruct (Nat.eqb_spec (List.length fs) (List.length (signature h))) as [L|L]; [|reflexivity].
    exfalso. apply F. apply all_some_in in E.
    assert (I : incl (signature h) (map fst fs)).
    { intros n X. apply (get_in _ fs n). apply (in_map (fun n => dict_get String.eqb n fs)) in X. rewrite E in X. apply in_map_iff in X. destruct X as (v & X & _). now exists v. }
    assert (J : incl (map fst fs) (signature h)). { apply NoDup_length_incl; [exact N|rewrite map_length; lia|exact I]. }
    intros n. split; [apply J|apply I].
  - intros F. destruct (all_some_ok _ (map (fun n => dict_get String.eqb n fs) (signature h))) as [args E].
    { intros x X. apply in_map_iff in X. destruct X as (n & <- & X). apply F in X. apply get_in in X. destruct X as [v ->]. discriminate. }
    exists args. split; [now apply all_some_in|]. rewrite E. replace (Nat.eqb _ _) with true; [reflexivity|]. symmetry. apply Nat.eqb_eq.
    rewrite <- (map_length fst fs). apply Permutation_length, NoDup_Permutation; assumption.
  - intros fs' P. rewrite (Permutation_length P).
    replace (map (fun p => dict_get String.eqb p fs') (signature h)) with (map (fun p => dict_get String.eqb p fs) (signature h)); [reflexivity|].
    apply map_ext. intros n. now apply get_perm.
Qed.
(*@ex
Example C76_fields_ex : let b := mkbs 3 5 7 in
  (forall py i, call_handler py H_adc i [("Rm", b)] = Err TypeError) /\ (forall py i, call_handler py H_adc i [("Rm", b); ("Rn", b)] = Err TypeError) /\
  (forall py i, call_handler py H_adc i [("Rm", b); ("Rdn", b); ("i", b)] = Err TypeError) /\ fits H_adc ["Rdn"; "Rm"].
Proof. split; [reflexivity|]. split; [reflexivity|]. split; [reflexivity|]. intros n. cbn [signature In]. tauto. Qed.
@*)

Lemma fields_names : forall vals fmt, Permutation (map fst (arguments vals fmt)) (names fmt).
Proof.
  intros vals fmt. unfold arguments, names. rewrite flat_map_concat_map, concat_map, map_map, <- flat_map_concat_map.
  rewrite <- (Permutation_flat_map _ (Permutation_rev fmt)). apply Permutation_refl'. apply flat_map_ext. intros [b|n s|n v]; reflexivity.
Qed.
(*@doc C76: so a format that does not name exactly the parameters makes a decoder all right; every
word of the format raises TypeError when it is decoded, and a format that does is decoded by the
function with the fields in the order of its parameters. @*)
Lemma C76_misfit_proof : forall h mnemonic k text kw fmt d py w a,
  parse_spec text = Ok fmt -> NoDup (names fmt) -> make_decoder h mnemonic k text None kw = Ok d -> (0 <= w < 2 ^ 16)%Z -> check d w = true ->
  (~ fits h (names fmt) -> decode_one call_handler py d w a = Err TypeError) /\
  (fits h (names fmt) -> exists vals args, w = encode vals fmt /\ map (fun n => dict_get String.eqb n (arguments vals fmt)) (signature h) = map Some args /\
    decode_one call_handler py d w a = snd (handler_of h) py (blank_insn k mnemonic w a false kw) args).
Proof.
  intros h mnemonic k text kw fmt d py w a P N M W C. destruct (C24_only16_proof _ h mnemonic k text kw fmt d w P N M W C) as [vals E].
  assert (T : total_size fmt = 16%Z).
  { destruct (Z.eq_dec (total_size fmt) 16) as [T|T]; [exact T|]. rewrite (proj1 (C24_size_proof _ h mnemonic k text text kw fmt fmt P P) T) in M. discriminate M. }
  destruct (C24_encode16_proof _ h mnemonic k text kw fmt vals P T N) as (d' & M' & _ & _ & D). rewrite M in M'. injection M' as <-.
  specialize (D call_handler py a). rewrite <- E in D. rewrite D. pose proof (fields_names vals fmt) as F.
  destruct (C76_fields_proof py h (blank_insn k mnemonic w a false kw) (arguments vals fmt)) as (A & B & _). { exact (Permutation_NoDup (Permutation_sym F) N). }
  assert (Q : fits h (names fmt) <-> fits h (map fst (arguments vals fmt))).
  { split; intros X n; rewrite <- (X n); split; apply Permutation_in; assumption || (apply Permutation_sym; assumption). }
  split; [intros X; apply A; tauto|]. intros X. apply Q in X. destruct (B X) as (args & E1 & E2). exists vals, args. now repeat split.
Qed.
(*@ex
Example C76_misfit_ex : let f := make_decoder H_adc "and" BitOp in
  (exists d, f "010000 0000 Rm(3) Rn(3)" None [] = Ok d /\ check d 0x4008 = true /\ forall py a, decode_one call_handler py d 0x4008 a = Err TypeError) /\
  exists d i, f "010000 0000 Rdn(3) Rm(3)" None [] = Ok d /\ check d 0x4008 = true /\ decode_one call_handler Py3 d 0x4008 0 = Ok i /\ a_d (i_attrs i) = Some 1%Z /\ a_m (i_attrs i) = Some 0%Z.
Proof.
  split; [eexists; split; [vm_compute; reflexivity|]; split; [vm_compute; reflexivity|intros [|] a; reflexivity]|].
  eexists. eexists. split; [vm_compute; reflexivity|]. split; [vm_compute; reflexivity|]. split; [vm_compute; reflexivity|]. split; reflexivity.
Qed.
@*)
(*@doc C76: the same for two halfwords. @*)
Lemma C76_misfit32_proof : forall h mnemonic k text text2 kw fmt fmt2 d py w a,
  parse_spec text = Ok fmt -> parse_spec text2 = Ok fmt2 -> NoDup (names fmt ++ names fmt2) -> make_decoder h mnemonic k text (Some text2) kw = Ok d ->
  (0 <= w < 2 ^ 32)%Z -> check d w = true ->
  (~ fits h (names fmt ++ names fmt2) -> decode_one call_handler py d w a = Err TypeError) /\
  (fits h (names fmt ++ names fmt2) -> exists vals args, w = (encode vals fmt + 2 ^ 16 * encode vals fmt2)%Z /\
    map (fun n => dict_get String.eqb n (arguments vals fmt ++ arguments vals fmt2)) (signature h) = map Some args /\
    decode_one call_handler py d w a = snd (handler_of h) py (blank_insn k mnemonic w a true kw) args).
Proof.
  intros h mnemonic k text text2 kw fmt fmt2 d py w a P P2 N M W C. destruct (C24_only32_proof _ h mnemonic k text text2 kw fmt fmt2 d w P P2 N M W C) as [vals E].
  assert (T : total_size fmt = 16%Z /\ total_size fmt2 = 16%Z).
  { destruct (Z.eq_dec (total_size fmt) 16) as [T|T], (Z.eq_dec (total_size fmt2) 16) as [T2|T2]; [now split| | |];
    rewrite (proj2 (C24_size_proof _ h mnemonic k text text2 kw fmt fmt2 P P2)) in M by tauto; discriminate M. }
  destruct T as [T T2].
  destruct (C24_encode32_proof _ h mnemonic k text text2 kw fmt fmt2 vals P T P2 T2 N) as (d' & M' & _ & _ & D). rewrite M in M'. injection M' as <-.
  specialize (D call_handler py a). rewrite <- E in D. rewrite D.
  assert (F : Permutation (map fst (arguments vals fmt ++ arguments vals fmt2)) (names fmt ++ names fmt2)). { rewrite map_app. apply Permutation_app; apply fields_names. }
  destruct (C76_fields_proof py h (blank_insn k mnemonic w a true kw) (arguments vals fmt ++ arguments vals fmt2)) as (A & B & _). { exact (Permutation_NoDup (Permutation_sym F) N). }
  assert (Q : fits h (names fmt ++ names fmt2) <-> fits h (map fst (arguments vals fmt ++ arguments vals fmt2))).
  { split; intros X n; rewrite <- (X n); split; apply Permutation_in; assumption || (apply Permutation_sym; assumption). }
  split; [intros X; apply A; tauto|]. intros X. apply Q in X. destruct (B X) as (args & E1 & E2). exists vals, args. now repeat split.
Qed.
(*@ex
Example C76_misfit32_ex : exists d, make_decoder H_mul_t2 "mul" Multiply "111110110000 Rn(4)" (Some "1111 Rd(4) 0000 Ra(4)") [] = Ok d /\
  check d 0xf102fb01 = true /\ forall py a, decode_one call_handler py d 0xf102fb01 a = Err TypeError.
Proof. eexists; split; [vm_compute; reflexivity|]; split; [vm_compute; reflexivity|intros [|] a; reflexivity]. Qed.
@*)
Lemma padded : forall b s k, wf b -> (0 <= k)%Z -> bs_init (VStr s) None = Ok (bits k 0) -> exists r, cat_str b s = Ok r /\ wf r /\ bw r = (bw b + k)%Z /\ bv r = (bv b * 2 ^ k)%Z.
Proof.
  intros b s k W K I. assert (W0 : wf (bits k 0)). { unfold wf, bits. cbn [bw bv bm]. rewrite Z.mod_0_l by lia. lia. }
  destruct (C03_operands_proof b W) as [C _]. unfold cat_str. rewrite (C s _ I). destruct (C03_concat_proof b _ W W0) as (r & E & Wr & B & V & _).
  exists r. split; [exact E|]. split; [exact Wr|]. cbn [bits bw bv] in B, V. rewrite Z.mod_0_l in V by lia. split; [exact B|]. rewrite V. lia.
Qed.
Lemma extended : forall b, wf b -> (bw b <= 32)%Z -> bs_zero_extend b 32 = Ok (bits 32 (bv b)).
Proof.
  intros b W B. destruct (proj1 (C10_zero_extend_proof b 32 W) B) as (r & E & (R1 & R2 & R3) & R4 & R5). rewrite E. f_equal. destruct r as [w v m]. cbn [bw bv bm] in *. subst w v m.
  unfold bits. rewrite Z.mod_small by exact R2. reflexivity.
Qed.
(*@doc C76: what the registration gives the object reaches these functions: the one for loads and
stores with an offset scales it by the size, and raises AttributeError if neither the class nor
the registration gives one. @*)
Lemma C76_memsize_proof : forall py i imm5 Rn Rt, wf imm5 -> (bw imm5 <= 30)%Z ->
  let r := call_handler py H_ldr_str_imm i [("imm5", imm5); ("Rn", Rn); ("Rt", Rt)] in
  match a_memsize (i_attrs i) with
  | None => r = Err AttributeError
  | Some m => exists j, r = Ok j /\ i_klass j = i_klass i /\ a_memsize (i_attrs j) = Some m /\ a_t (i_attrs j) = Some (bv Rt) /\ a_n (i_attrs j) = Some (bv Rn) /\
      a_imm32 (i_attrs j) = Some (bits 32 (bv imm5 * (if m =? 32 then 4 else if m =? 16 then 2 else 1)))
  end%Z.
Proof.
  intros py i imm5 Rn Rt W B. cbv zeta. unfold call_handler. cbn [handler_of h_ldr_str_imm map dict_get String.eqb Ascii.eqb Bool.eqb all_some List.length Nat.eqb].
  destruct i as [mn wd b32 ad k ops at0]. unfold set_t, set_n. cbn [set_attrs i_attrs]. change (a_memsize (with_n (bs_unsigned Rn) (with_t (bs_unsigned Rt) at0))) with (a_memsize at0).
  destruct (a_memsize at0) as [m|] eqn:M; [|reflexivity]. cbn [attr bind].
  assert (X : exists b, (if (m =? 32)%Z then cat_str imm5 "00" else if (m =? 16)%Z then cat_str imm5 "0" else Ok imm5) = Ok b /\ wf b /\ (bw b <= 32)%Z /\
    bv b = (bv imm5 * (if m =? 32 then 4 else if m =? 16 then 2 else 1))%Z).
  { destruct (m =? 32)%Z.
    - destruct (padded imm5 "00" 2 W ltac:(lia) eq_refl) as (r & E & Wr & R & V). exists r. split; [exact E|]. split; [exact Wr|]. split; [lia|exact V].
    - destruct (m =? 16)%Z; [|exists imm5; split; [reflexivity|split; [exact W|split; lia]]].
      destruct (padded imm5 "0" 1 W ltac:(lia) eq_refl) as (r & E & Wr & R & V). exists r. split; [exact E|]. split; [exact Wr|]. split; [lia|exact V]. }
  destruct X as (b & E & Wb & Bb & V). rewrite E. cbn [bind]. rewrite (extended b Wb Bb), V. cbn [bind]. eexists. split; [reflexivity|].
  destruct at0. cbn in M. repeat split. exact M.
Qed.
(*@ex
Example C76_memsize_ex : wf (mkbs 5 3 31) /\ a_memsize (klass_attrs Load) = Some 32%Z /\ a_memsize (klass_attrs AddSub) = None /\
  exists d, make_decoder H_ldr_str_imm "add" AddSub "011 0 0 imm5(5) Rn(3) Rt(3)" None [] = Ok d /\ check d 0x6008 = true /\ forall py a, decode_one call_handler py d 0x6008 a = Err AttributeError.
Proof.
  split; [unfold wf; cbn [bw bv bm]; vm_compute; intuition discriminate|]. split; [reflexivity|]. split; [reflexivity|].
  eexists; split; [vm_compute; reflexivity|]; split; [vm_compute; reflexivity|intros [|] a; reflexivity].
Qed.
@*)
