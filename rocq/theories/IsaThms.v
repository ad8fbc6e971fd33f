(** * The built-in instruction set: properties C25, C26, C28, C30, C31 *)
From Coq Require Import ZArith List Lia Bool ZifyBool String Permutation Sorted.
From Verif Require Import BitFacts BitOps HelpFacts TableModel TreeFacts SpecArm SpecBits SpecDecoder SpecIsa ParseFacts DecThms IsaFacts IsaOps IsaRows.
Local Open Scope Z_scope.
(*@imports
From Coq Require Import Lia Permutation.
From Verif Require Import TableModel SpecBits SpecArm SpecDecoder SpecIsa IsaThms.
@*)

(** ** The table and the sorted decoders *)
Definition row_bits (d : decoder hid) (r : isa_row) : bool :=
  places_ok (r_text r) && (fixed_mask (placed (r_text r)) =? d_mask d) && (fixed_match (placed (r_text r)) =? d_match d).
Lemma bits16 : Forall2 (fun d r => row_bits d r = true) sorted16 isa16.
Proof. unfold sorted16, isa16. repeat (apply Forall2_cons; [vm_compute; reflexivity|]). apply Forall2_nil. Qed.
Lemma bits32 : Forall2 (fun d r => row_bits d r = true) sorted32 isa32.
Proof. unfold sorted32, isa32. repeat (apply Forall2_cons; [vm_compute; reflexivity|]). apply Forall2_nil. Qed.
Lemma narrow16 : Forall (fun d => d_is32 d = false) sorted16.
Proof. unfold sorted16. repeat (apply Forall_cons; [reflexivity|]). apply Forall_nil. Qed.
Lemma wide32 : Forall (fun d => d_is32 d = true) sorted32.
Proof. unfold sorted32. repeat (apply Forall_cons; [reflexivity|]). apply Forall_nil. Qed.

Lemma fits_decoder : forall d r w, row_bits d r = true -> check d w = fits (r_text r) w.
Proof.
  intros d r w H. unfold row_bits in H. apply andb_prop in H. destruct H as [H H3]. apply andb_prop in H. destruct H as [H1 H2].
  apply Z.eqb_eq in H2, H3. rewrite fits_check by exact H1. rewrite H2, H3. reflexivity.
Qed.

Lemma decoded_declines : forall b w a o, (forall e, o = Raises e -> e <> DecodeError) ->
  match decoded b w a o with Err DecodeError => is_other o = true | _ => is_other o = false end.
Proof.
  intros b w a [m k l ops| | |e] H; try reflexivity. cbn [decoded is_other]. specialize (H e eq_refl). destruct e; congruence.
Qed.

Lemma scan_rows : forall b ds rows, Forall2 row_ok ds rows -> Forall2 (fun d r => row_bits d r = true) ds rows ->
  Forall (fun d => d_is32 d = b) ds -> forall py w a,
  scan call_handler py w a ds = option_map (fun r => decoded b w a (observed py r w)) (row_for rows w).
Proof.
  intros b ds rows H. induction H as [|d r ds rows Hd H IH]; intros B N py w a; [reflexivity|].
  inversion B as [|? ? ? ? B1 B2]; subst. inversion N as [|? ? N1 N2]; subst. cbn [scan row_for].
  rewrite (fits_decoder d r w B1). destruct (fits (r_text r) w) eqn:F; cbn [andb].
  - assert (C : check d w = true) by (rewrite (fits_decoder d r w B1); exact F).
    destruct (Hd py w a C) as [E [O R]]. rewrite E. fold (documented r w).
    pose proof (decoded_declines (d_is32 d) w a _ R) as D. rewrite O in D.
    destruct (decoded (d_is32 d) w a (observed py r w)) as [i|[]] eqn:X; rewrite D; cbn [negb];
      try (cbn [option_map]; rewrite X; reflexivity). exact (IH B2 N2 py w a).
  - exact (IH B2 N2 py w a).
Qed.

Lemma table_ok : DECODERS = Ok table_decoders.
Proof. vm_compute. reflexivity. Qed.
Lemma table_ok' : map_res register_entry entries = Ok table_decoders.
Proof. vm_compute. reflexivity. Qed.
Lemma sort16 : sortw weight (registered16 table_decoders) = sorted16.
Proof. vm_compute. reflexivity. Qed.
Lemma sort32 : sortw weight (registered32 table_decoders) = sorted32.
Proof. vm_compute. reflexivity. Qed.
Lemma map_res_made : forall es ds, map_res register_entry es = Ok ds -> Forall made ds.
Proof.
  induction es as [|e es IH]; intros ds E; cbn [map_res] in E.
  - injection E as <-. constructor.
  - destruct (register_entry e) as [d|] eqn:R; [|discriminate]. cbn [bind] in E.
    destruct (map_res register_entry es) as [l|]; [|discriminate]. cbn [bind] in E. injection E as <-.
    apply Forall_cons; [|exact (IH l eq_refl)]. destruct e as [[[[[h mn] k] s] s2] kw]. exists h, mn, k, s, s2, kw. exact R.
Qed.
Lemma table_made : Forall made table_decoders.
Proof. exact (map_res_made _ _ table_ok'). Qed.
Local Opaque table_decoders sorted16 sorted32.

Lemma tree_def : DECODER_TREE = build table_decoders.
Proof. unfold DECODER_TREE. rewrite table_ok. reflexivity. Qed.

Definition missing (r : res insn) : Prop := r = Err UndefinedInstructionError \/ r = Err AttributeError.

Lemma table_tree : exists t16 t32, DECODER_TREE = Ok (mkdtree t16 t32) /\ forall py w a,
  match row_for isa16 w with
  | Some r => snd (tree_decode call_handler py t16 w a) = decoded false w a (observed py r w)
  | None => missing (snd (tree_decode call_handler py t16 w a))
  end /\
  match row_for isa32 w with
  | Some r => snd (tree_decode call_handler py t32 w a) = decoded true w a (observed py r w)
  | None => missing (snd (tree_decode call_handler py t32 w a))
  end.
Proof.
  destruct (built _ table_decoders table_made) as [t16 [t32 [E O]]].
  exists t16, t32. split.
  { rewrite tree_def. exact E. }
  intros py w a. destruct (O call_handler py w a) as [O16 O32]. rewrite O16, O32, sort16, sort32.
  assert (L16 : (List.length sorted16 < S (List.length table_decoders))%nat) by (apply Nat.ltb_lt; vm_compute; reflexivity).
  assert (L32 : (List.length sorted32 < S (List.length table_decoders))%nat) by (apply Nat.ltb_lt; vm_compute; reflexivity).
  unfold TreeFacts.outcome. rewrite (scan_rows false _ _ rows16 bits16 narrow16), (scan_rows true _ _ rows32 bits32 wide32).
  split.
  - destruct (row_for isa16 w); cbn [option_map]; [reflexivity|]. unfold missing.
    destruct (miss_cases _ sorted16 w L16) as [-> | ->]; [left | right]; reflexivity.
  - destruct (row_for isa32 w); cbn [option_map]; [reflexivity|]. unfold missing.
    destruct (miss_cases _ sorted32 w L32) as [-> | ->]; [left | right]; reflexivity.
Qed.

(** ** C31 *)

(*@doc C31: the instruction set builds. @*)
Lemma C31_builds_proof : exists t, DECODER_TREE = Ok t.
Proof. destruct table_tree as [t16 [t32 [E _]]]. eexists. exact E. Qed.

(*@doc C31: every halfword is decoded as the row of the encoding table that counts for
it says; a halfword without a row is reported as undefined (or, the defect of C28,
by AttributeError). @*)
Lemma C31_decode16_proof : forall t py a b0 b1 rest, DECODER_TREE = Ok t ->
  0 <= b0 < 256 -> 0 <= b1 < 256 -> ~ In (b1 / 8) [29; 30; 31] ->
  match row_for isa16 (b0 + 256 * b1) with
  | Some r => snd (decode call_handler py t (b0 :: b1 :: rest) a) =
              decoded false (b0 + 256 * b1) a (observed py r (b0 + 256 * b1))
  | None => snd (decode call_handler py t (b0 :: b1 :: rest) a) = Err UndefinedInstructionError \/
            snd (decode call_handler py t (b0 :: b1 :: rest) a) = Err AttributeError
  end.
Proof.
  intros t py a b0 b1 rest E H0 H1 N. destruct table_tree as [t16 [t32 [E' T]]]. rewrite E in E'. injection E' as ->.
  rewrite (proj1 (C27_word_proof _ call_handler py (mkdtree t16 t32) b0 b1 rest a H0 H1) N). cbn [t_16].
  exact (proj1 (T py (b0 + 256 * b1) a)).
Qed.
(*@ex
Example C31_decode16_ex : option_map (fun r => documented r 6738) (row_for isa16 6738) = 
  Some (Gives "subs" AddSub [D 2; N 2; M 1; Flags NotInITBlock; Carry false; Sub true]
    [SpecIsa.R 2; SpecIsa.R 2; SpecIsa.R 1]).
Proof. vm_compute. reflexivity. Qed.
Example C31_decode16_none_ex : row_for isa16 47104 = None.
Proof. reflexivity. Qed.
@*)

(*@doc C31: the same for 32-bit instructions. @*)
Lemma C31_decode32_proof : forall t py a b0 b1 b2 b3 rest, DECODER_TREE = Ok t ->
  0 <= b0 < 256 -> 0 <= b1 < 256 -> 0 <= b2 < 256 -> 0 <= b3 < 256 -> In (b1 / 8) [29; 30; 31] ->
  let w := b0 + 256 * b1 + 65536 * b2 + 16777216 * b3 in
  match row_for isa32 w with
  | Some r => snd (decode call_handler py t (b0 :: b1 :: b2 :: b3 :: rest) a) =
              decoded true w a (observed py r w)
  | None => snd (decode call_handler py t (b0 :: b1 :: b2 :: b3 :: rest) a) = Err UndefinedInstructionError \/
            snd (decode call_handler py t (b0 :: b1 :: b2 :: b3 :: rest) a) = Err AttributeError
  end.
Proof.
  intros t py a b0 b1 b2 b3 rest E H0 H1 H2 H3 N w. destruct table_tree as [t16 [t32 [E' T]]]. rewrite E in E'. injection E' as ->.
  rewrite (proj2 (C27_word_proof _ call_handler py (mkdtree t16 t32) b0 b1 rest a H0 H1) N b2 b3 H2 H3). cbn [t_32].
  exact (proj2 (T py w a)).
Qed.
(*@ex
Example C31_decode32_ex : option_map (fun r => documented r 4160942080) (row_for isa32 4160942080) = 
  Some (Gives "bl" Branch [Link true; Cond 15; Delta 0; Imm 4] [LabelOp 4]).
Proof. vm_compute. reflexivity. Qed.
@*)

(*@doc C31: outside the ten deviating encodings the outcome is the documented one. @*)
Lemma C31_documented_proof : forall py r w, In r (isa16 ++ isa32) -> ~ In (r_text r) deviating ->
  observed py r w = documented r w.
Proof.
  intros py r w I N. unfold observed.
  assert (F : Forall (fun r => match r_dev r with None => True | Some _ => In (r_text r) deviating end) (isa16 ++ isa32)).
  { apply Forall_app. split; unfold isa16, isa32;
    repeat (apply Forall_cons; [cbn [r_dev row row_dev r_text]; first [exact Logic.I | unfold deviating; repeat first [left; reflexivity | right]]|]); apply Forall_nil. }
  rewrite Forall_forall in F. specialize (F r I). destruct (r_dev r); [contradiction | reflexivity].
Qed.
(*@ex
Example C31_documented_ex : List.length (filter (fun r => negb (existsb (String.eqb (r_text r)) deviating)) (isa16 ++ isa32)) = 112%nat.
Proof. vm_compute. reflexivity. Qed.
@*)

(*@doc C31, refuted for the ten deviating encodings; one word for each kind of deviation:
cmp r1, r2 compares r1 with itself; b with a negative offset keeps the complement of
the offset; push.w {r0, r1} raises NameError; mov.w r0, r1 is called movs.w on
Python 3. @*)
Lemma C31_refuted_proof :
  (exists i, decode_bytes Py3 [145; 66] 0 = Ok i /\ option_map (fun r => documented r 17041) (row_for isa16 17041) =
    Some (Gives "cmp" Compare [N 1; M 2; Neg true] [SpecIsa.R 1; SpecIsa.R 2]) /\ a_m (i_attrs i) = Some 1) /\
  (exists i, decode_bytes Py3 [252; 231] 0 = Ok i /\ option_map (fun r => documented r 59388) (row_for isa16 59388) =
    Some (Gives "b" Branch [Link false; Cond 15; Delta 0; Imm (-8)] [LabelOp (-8)]) /\
    a_imm32 (i_attrs i) = Some (bits 32 7)) /\
  (decode_bytes Py3 [45; 233; 3; 0] 0 = Err NameError /\ option_map (fun r => documented r 256301) (row_for isa32 256301) =
    Some (Gives "push.w" Push [Regs 3] [RL 3])) /\
  (exists i, decode_bytes Py3 [79; 234; 1; 0] 0 = Ok i /\ option_map (fun r => documented r 125519) (row_for isa32 125519) =
    Some (Gives "mov.w" Move [D 0; M 1; Flags Never; Neg false] [SpecIsa.R 0; SpecIsa.R 1]) /\
    i_mnemonic i = "movs.w"%string).
Proof.
  split; [|split; [|split]].
  - eexists. split; [vm_compute; reflexivity|]. split; vm_compute; reflexivity.
  - eexists. split; [vm_compute; reflexivity|]. split; vm_compute; reflexivity.
  - split; vm_compute; reflexivity.
  - eexists. split; [vm_compute; reflexivity|]. split; vm_compute; reflexivity.
Qed.

(** ** C28, C30 *)
Lemma rows_raise : Forall (fun r => forall py w, is_other (observed py r w) = is_other (documented r w) /\
  (forall e, observed py r w = Raises e -> e = NameError /\ r_text r = "11101001001011010l0rrrrrrrrrrrrr"%string) /\
  (forall e, documented r w <> Raises e)) (isa16 ++ isa32).
Proof.
  apply Forall_app. split; unfold isa16, isa32;
  repeat (apply Forall_cons; [intros py w; unfold observed, documented; cbn [r_dev row row_dev r_text r_doc];
    try match goal with |- context [field ?t w] => generalize (field t w) as f; intro f end;
    repeat match goal with |- context [if ?b then _ else _] => destruct b end;
    (split; [reflexivity|]; split; [intros e E; first [discriminate E | injection E as <-; split; reflexivity] | intros e; discriminate])|]);
  apply Forall_nil.
Qed.

Lemma row_for_in : forall table w r, row_for table w = Some r ->
  In r table /\ fits (r_text r) w = true /\ is_other (documented r w) = false.
Proof.
  induction table as [|r0 table IH]; intros w r E; cbn [row_for] in E; [discriminate|].
  destruct (fits (r_text r0) w && negb (is_other (r_doc r0 (field (r_text r0) w)))) eqn:F.
  - injection E as <-. apply andb_prop in F. destruct F as [F1 F2]. apply negb_true_iff in F2.
    split; [left; reflexivity|]. split; assumption.
  - destruct (IH w r E) as [I [F1 F2]]. split; [right; exact I|]. split; assumption.
Qed.

Lemma prefix_dec : forall x, {In x [29; 30; 31]} + {~ In x [29; 30; 31]}.
Proof. intro x. apply in_dec, Z.eq_dec. Qed.

Lemma decode_cases : forall py data a, bytes data -> (2 <= List.length data)%nat ->
  decode_bytes py data a = Err UndefinedInstructionError \/ decode_bytes py data a = Err AttributeError \/
  exists w is32 r, In r (isa16 ++ isa32) /\ fits (r_text r) w = true /\ is_other (documented r w) = false /\
    decode_bytes py data a = decoded is32 w a (observed py r w) /\
    ((is32 = false /\ exists b0 b1 rest, data = b0 :: b1 :: rest /\ ~ In (b1 / 8) [29; 30; 31] /\ w = b0 + 256 * b1) \/
     (is32 = true /\ exists b0 b1 b2 b3 rest, data = b0 :: b1 :: b2 :: b3 :: rest /\ In (b1 / 8) [29; 30; 31] /\ w = b0 + 256 * b1 + 65536 * b2 + 16777216 * b3)).
Proof.
  intros py data a B L. destruct C31_builds_proof as [t E]. unfold decode_bytes. rewrite E. cbn [bind].
  destruct data as [|b0 [|b1 rest]]; cbn [List.length] in L; [lia | lia|].
  inversion B as [|? ? B0 B']; subst. inversion B' as [|? ? B1 B'']; subst.
  destruct (prefix_dec (b1 / 8)) as [P|P].
  - destruct rest as [|b2 [|b3 rest]].
    + left. exact (proj1 (proj2 (proj2 (C27_short_proof _ call_handler py t a b0 b1 B0 B1)) P)).
    + left. exact (proj2 (proj2 (proj2 (C27_short_proof _ call_handler py t a b0 b1 B0 B1)) P) b2).
    + inversion B'' as [|? ? B2 C]; subst. inversion C as [|? ? B3 C']; subst.
      pose proof (C31_decode32_proof t py a b0 b1 b2 b3 rest E B0 B1 B2 B3 P) as D. cbv zeta in D.
      set (w := b0 + 256 * b1 + 65536 * b2 + 16777216 * b3) in *.
      destruct (row_for isa32 w) as [r|] eqn:F; [|tauto]. right. right. exists w, true, r.
      destruct (row_for_in _ _ _ F) as [I1 [I2 I3]]. split; [apply in_or_app; right; exact I1|].
      split; [exact I2|]. split; [exact I3|]. split; [exact D|]. right. split; [reflexivity|]. exists b0, b1, b2, b3, rest. split; [reflexivity|]. split; [exact P | reflexivity].
  - pose proof (C31_decode16_proof t py a b0 b1 rest E B0 B1 P) as D. set (w := b0 + 256 * b1) in *.
      destruct (row_for isa16 w) as [r|] eqn:F; [|tauto]. right. right. exists w, false, r.
      destruct (row_for_in _ _ _ F) as [I1 [I2 I3]]. split; [apply in_or_app; left; exact I1|].
      split; [exact I2|]. split; [exact I3|]. split; [exact D|]. left. split; [reflexivity|]. exists b0, b1, rest. split; [reflexivity|]. split; [exact P | reflexivity].
Qed.

(*@doc C28: decoding two or more bytes returns an instruction or raises
UndefinedInstructionError, UnpredictableError, AttributeError (a word without a row)
or NameError, the last only for push.w. @*)
Lemma C28_errors_partial_proof : forall py data a, bytes data -> (2 <= List.length data)%nat ->
  (exists i, decode_bytes py data a = Ok i) \/
  decode_bytes py data a = Err UndefinedInstructionError \/
  decode_bytes py data a = Err UnpredictableError \/
  decode_bytes py data a = Err AttributeError \/
  (decode_bytes py data a = Err NameError /\
   exists b2 b3 rest, data = 45 :: 233 :: b2 :: b3 :: rest /\ Z.testbit b3 7 = false /\ Z.testbit b3 5 = false).
Proof.
  intros py data a B L. destruct (decode_cases py data a B L) as [E|[E|[w [is32 [r [I [F [O [E D]]]]]]]]]; [tauto | tauto|].
  pose proof rows_raise as R. rewrite Forall_forall in R. destruct (R r I py w) as [O' [Q _]]. rewrite O in O'.
  destruct (observed py r w) as [m k l ops| | |e] eqn:X; cbn [decoded is_other] in *; try discriminate O'.
  - left. eexists. exact E.
  - right. right. left. exact E.
  - right. right. right. right. destruct (Q e eq_refl) as [-> T]. split; [exact E|].
    assert (M : Z.land w 2684420095 = 59693).
    { rewrite T in F. rewrite fits_check in F by (vm_compute; reflexivity). apply Z.eqb_eq in F. exact F. }
    assert (Bt : forall i, 0 <= i -> Z.testbit 2684420095 i = true -> Z.testbit w i = Z.testbit 59693 i).
    { intros i Hi Ht. rewrite <- M, Z.land_spec, Ht, andb_true_r. reflexivity. }
    clear X Q R O' E F T O.
    assert (W : w mod 65536 = 59693).
    { pose proof (fld_fixed w 2684420095 59693 0 16 M ltac:(lia) ltac:(lia) ltac:(reflexivity)) as G. unfold fld in G.
      rewrite !Z.div_1_r in G. exact G. }
    destruct D as [[_ [b0 [b1 [rest [-> [P ->]]]]]]|[_ [b0 [b1 [b2 [b3 [rest [-> [_ ->]]]]]]]]].
    + exfalso. inversion B as [|? ? B0 B']; subst. inversion B' as [|? ? B1 B'']; subst.
      rewrite Z.mod_small in W by lia. apply P. left. assert (b1 = 233) by lia. subst b1. reflexivity.
    + inversion B as [|? ? B0 B']; subst. inversion B' as [|? ? B1 B'']; subst.
      inversion B'' as [|? ? B2 C]; subst. inversion C as [|? ? B3 C']; subst.
      assert (S : forall i, 0 <= i < 8 -> Z.testbit (b0 + 256 * b1 + 65536 * b2 + 16777216 * b3) (24 + i) = Z.testbit b3 i).
      { intros i Hi. replace (24 + i) with (i + 24) by lia. rewrite <- (Z.shiftr_spec _ 24 i) by lia. rewrite Z.shiftr_div_pow2 by lia.
        change (2 ^ 24) with 16777216.
        f_equal. symmetry. apply Z.div_unique with (r := b0 + 256 * b1 + 65536 * b2); lia. }
      pose proof (Bt 31 ltac:(lia) eq_refl) as T7. pose proof (Bt 29 ltac:(lia) eq_refl) as T5.
      change 31 with (24 + 7) in T7 at 1. change 29 with (24 + 5) in T5 at 1. rewrite S in T7, T5 by lia.
      replace (b0 + 256 * b1 + 65536 * b2 + 16777216 * b3) with ((b0 + 256 * b1) + (b2 + 256 * b3) * 65536) in W by lia.
      rewrite Z.mod_add, Z.mod_small in W by lia.
      exists b2, b3, rest. assert (b0 = 45) by lia. assert (b1 = 233) by lia. subst b0 b1.
      split; [reflexivity|]. split; [exact T7 | exact T5].
Qed.
(*@ex
Example C28_errors_ex : bytes [0; 191] /\ exists i, decode_bytes Py3 [0; 191] 0 = Ok i.
Proof. split; [repeat constructor; lia | eexists; vm_compute; reflexivity]. Qed.
@*)

(*@doc C28: a word that has a row does not raise AttributeError, and raises
UndefinedInstructionError never. @*)
Lemma C28_row_proof : forall py a b0 b1 rest r, 0 <= b0 < 256 -> 0 <= b1 < 256 -> ~ In (b1 / 8) [29; 30; 31] ->
  row_for isa16 (b0 + 256 * b1) = Some r ->
  (exists i, decode_bytes py (b0 :: b1 :: rest) a = Ok i) \/ decode_bytes py (b0 :: b1 :: rest) a = Err UnpredictableError.
Proof.
  intros py a b0 b1 rest r B0 B1 P F. destruct C31_builds_proof as [t E]. unfold decode_bytes. rewrite E. cbn [bind].
  pose proof (C31_decode16_proof t py a b0 b1 rest E B0 B1 P) as D. rewrite F in D. rewrite D.
  destruct (row_for_in _ _ _ F) as [I [_ O]].
  pose proof rows_raise as R. rewrite Forall_forall in R. destruct (R r (in_or_app _ _ _ (or_introl I)) py (b0 + 256 * b1)) as [O' [Q _]].
  rewrite O in O'. destruct (observed py r (b0 + 256 * b1)) as [m k l ops| | |e] eqn:X; cbn [decoded is_other] in *; try discriminate O'.
  - left. eexists. reflexivity.
  - right. reflexivity.
  - exfalso. destruct (Q e eq_refl) as [_ T]. clear - I T.
    assert (N : Forall (fun r => String.length (r_text r) = 16%nat) isa16).
    { unfold isa16. repeat (apply Forall_cons; [reflexivity|]). apply Forall_nil. }
    rewrite Forall_forall in N. specialize (N r I). rewrite T in N. discriminate N.
Qed.
(*@ex
Example C28_row_ex : option_map r_text (row_for isa16 (0 + 256 * 191)) = Some "1011111100000000"%string /\ ~ In (191 / 8) [29; 30; 31].
Proof. split; [vm_compute; reflexivity|]. cbn. intuition discriminate. Qed.
@*)

(*@doc C28, refuted: the halfword 0xb800, which no row decodes, raises AttributeError
instead of UndefinedInstructionError, and push.w {r0, r1} raises NameError. @*)
Lemma C28_refuted_proof : exists data data', bytes data /\ bytes data' /\
  (2 <= List.length data)%nat /\ (2 <= List.length data')%nat /\
  (forall py, decode_bytes py data 0 = Err AttributeError) /\ (forall py, decode_bytes py data' 0 = Err NameError).
Proof.
  exists [0; 184], [45; 233; 3; 0].
  split; [repeat (apply Forall_cons; [lia|]); apply Forall_nil|].
  split; [repeat (apply Forall_cons; [lia|]); apply Forall_nil|]. cbn [List.length].
  split; [lia|]. split; [lia|]. split; intros []; vm_compute; reflexivity.
Qed.

(*@doc C25, refuted: the tree of the built-in instruction set answers a word for which
no decoder is tried with AttributeError instead of UndefinedInstructionError. @*)
Lemma C25_undefined_refuted_proof : exists t w, DECODER_TREE = Ok t /\ row_for isa16 w = None /\
  forall py, snd (tree_decode call_handler py (t_16 t) w 0) = Err AttributeError.
Proof.
  destruct DECODER_TREE as [t|] eqn:E; [|vm_compute in E; discriminate E].
  exists t, 47104. split; [reflexivity|]. split; [vm_compute; reflexivity|]. intros py.
  assert (T : forall py, (let* t := DECODER_TREE in snd (tree_decode call_handler py (t_16 t) 47104 0)) = Err AttributeError)
    by (intros []; vm_compute; reflexivity).
  specialize (T py). rewrite E in T. exact T.
Qed.

(** Bytes of a word *)
Lemma word_byte : forall w k, 0 <= k -> Z.land (Z.shiftr w (8 * k)) 255 = (w / 2 ^ (8 * k)) mod 256.
Proof. intros w k H. change 255 with (Z.ones 8). rewrite Z.land_ones, Z.shiftr_div_pow2 by lia. reflexivity. Qed.

(*@doc C30: a decoded instruction has the bytes it was decoded from and the address it
was given, and is two or four bytes long according to its first halfword (C27). @*)
Lemma C30_bytes_proof : forall py data a i, bytes data -> decode_bytes py data a = Ok i ->
  i_bytes i = firstn (Z.to_nat (i_size i)) data /\ i_address i = a /\
  i_size i = (if in_dec Z.eq_dec (nth 1 data 0 / 8) [29; 30; 31] then 4 else 2) /\
  i_size i <= Z.of_nat (List.length data).
Proof.
  intros py data a i B E.
  assert (L : (2 <= List.length data)%nat).
  { destruct data as [|b0 [|b1 rest]]; [| |cbn [List.length]; lia]; exfalso; unfold decode_bytes in E;
    destruct C31_builds_proof as [t T]; rewrite T in E; cbn [bind] in E.
    - rewrite (proj1 (C27_short_proof _ call_handler py t a 0 0 ltac:(lia) ltac:(lia))) in E. discriminate E.
    - inversion B as [|? ? B0 B']; subst.
      rewrite (proj1 (proj2 (C27_short_proof _ call_handler py t a b0 0 B0 ltac:(lia)))) in E. discriminate E. }
  destruct (decode_cases py data a B L) as [X|[X|[w [is32 [r [I [F [O [X D]]]]]]]]]; rewrite X in E; try discriminate E.
  destruct (observed py r w) as [m k l ops| | |e]; cbn [decoded] in E; try discriminate E. injection E as <-.
  unfold i_bytes, i_size. cbn [i_is32 i_word i_address].
  destruct D as [[-> [b0 [b1 [rest [-> [P ->]]]]]]|[-> [b0 [b1 [b2 [b3 [rest [-> [P ->]]]]]]]]]; cbn [nth];
  destruct (in_dec Z.eq_dec (b1 / 8) [29; 30; 31]) as [J|J]; try contradiction.
  - inversion B as [|? ? B0 B']; subst. inversion B' as [|? ? B1 B'']; subst.
    split; [|split; [reflexivity|]; split; [reflexivity | cbn [List.length]; lia]].
    change (py_range 2) with [0; 1]. cbn [map]. rewrite !word_byte by lia. change (Z.to_nat 2) with 2%nat. cbn [firstn].
    change (2 ^ (8 * 0)) with 1. change (2 ^ (8 * 1)) with 256. rewrite Z.div_1_r.
    f_equal; [|f_equal].
    + rewrite Z.add_comm, Z.mul_comm, Z.add_comm, Z.mod_add, Z.mod_small by lia. reflexivity.
    + rewrite (Z.mul_comm 256 b1), Z.div_add, Z.div_small, Z.mod_small by lia. reflexivity.
  - inversion B as [|? ? B0 B']; subst. inversion B' as [|? ? B1 B'']; subst.
    inversion B'' as [|? ? B2 C]; subst. inversion C as [|? ? B3 C']; subst.
    split; [|split; [reflexivity|]; split; [reflexivity | cbn [List.length]; lia]].
    change (py_range 4) with [0; 1; 2; 3]. cbn [map]. rewrite !word_byte by lia. change (Z.to_nat 4) with 4%nat. cbn [firstn].
    change (2 ^ (8 * 0)) with 1. change (2 ^ (8 * 1)) with 256. change (2 ^ (8 * 2)) with 65536. change (2 ^ (8 * 3)) with 16777216. rewrite Z.div_1_r.
    f_equal; [|f_equal; [|f_equal; [|f_equal]]].
    + replace (b0 + 256 * b1 + 65536 * b2 + 16777216 * b3) with (b0 + (b1 + 256 * b2 + 65536 * b3) * 256) by lia.
      rewrite Z.mod_add, Z.mod_small by lia. reflexivity.
    + replace (b0 + 256 * b1 + 65536 * b2 + 16777216 * b3) with (b0 + (b1 + (b2 + 256 * b3) * 256) * 256) by lia.
      rewrite Z.div_add, Z.div_small, Z.add_0_l, Z.mod_add, Z.mod_small by lia. reflexivity.
    + replace (b0 + 256 * b1 + 65536 * b2 + 16777216 * b3) with (b0 + 256 * b1 + (b2 + b3 * 256) * 65536) by lia.
      rewrite Z.div_add, Z.div_small, Z.add_0_l, Z.mod_add, Z.mod_small by lia. reflexivity.
    + replace (b0 + 256 * b1 + 65536 * b2 + 16777216 * b3) with (b0 + 256 * b1 + 65536 * b2 + b3 * 16777216) by lia.
      rewrite Z.div_add, Z.div_small, Z.add_0_l, Z.mod_small by lia. reflexivity.
Qed.
(*@ex
Example C30_bytes_ex : exists i, decode_bytes Py3 [0; 240; 3; 248; 1] 100 = Ok i /\ i_size i = 4 /\ i_bytes i = [0; 240; 3; 248].
Proof. eexists. split; [vm_compute; reflexivity|]. split; vm_compute; reflexivity. Qed.
@*)

(** ** C26: the order of registration *)
Definition apart (d1 d2 : decoder hid) : bool :=
  negb (Z.land (Z.land (d_mask d1) (d_mask d2)) (Z.lxor (d_match d1) (d_match d2)) =? 0).
Lemma apart_check : forall d1 d2 w, apart d1 d2 = true -> check d1 w = true -> check d2 w = true -> False.
Proof.
  intros d1 d2 w A C1 C2. unfold apart in A. apply negb_true_iff, Z.eqb_neq in A. apply A. clear A.
  unfold check in C1, C2. apply Z.eqb_eq in C1, C2. rewrite <- C1, <- C2. apply Z.bits_inj'. intros i Hi.
  rewrite Z.bits_0, !Z.land_spec, Z.lxor_spec, !Z.land_spec.
  destruct (Z.testbit w i), (Z.testbit (d_mask d1) i), (Z.testbit (d_mask d2) i); reflexivity.
Qed.

Definition sp_text : string := "010001001mmmm101".
Definition covers (d : decoder hid) : bool := (fld (d_mask d) 3 4 =? 15) && (fld (d_match d) 3 4 =? 13).
Definition distinct (wt : decoder hid -> Z) (x y : decoder hid * isa_row) : bool :=
  negb (wt (fst x) =? wt (fst y)) || apart (fst x) (fst y) ||
  String.eqb (r_text (snd x)) sp_text && covers (fst y) || String.eqb (r_text (snd y)) sp_text && covers (fst x).
Fixpoint all_pairs {A} (P : A -> A -> bool) (l : list A) : bool :=
  match l with [] => true | x :: l' => forallb (P x) l' && all_pairs P l' end.
Lemma all_pairs_ok : forall A (P : A -> A -> bool) l, all_pairs P l = true -> ForallOrdPairs (fun x y => P x y = true) l.
Proof.
  intros A P l. induction l as [|x l IH]; intro E; [constructor|]. cbn [all_pairs] in E. apply andb_prop in E. destruct E as [E1 E2].
  constructor; [|exact (IH E2)]. apply Forall_forall. apply forallb_forall. exact E1.
Qed.

Definition sp_row (r : isa_row) : Prop :=
  String.eqb (r_text r) sp_text = true -> forall w, fld w 3 4 = 13 -> documented r w = Other.
Lemma sp_field : forall w, field "010001001mmmm101" w "m" = fld w 3 4.
Proof. intro w. fields_of_spec. reflexivity. Qed.
Lemma sp_rows16 : Forall sp_row isa16.
Proof.
  unfold isa16. repeat (apply Forall_cons; [intro E; first [discriminate E |
    intros w F; unfold documented, row, r_doc, r_text; rewrite sp_field, F; reflexivity]|]). apply Forall_nil.
Qed.
Lemma sp_rows32 : Forall sp_row isa32.
Proof. unfold isa32. repeat (apply Forall_cons; [intro E; discriminate E|]). apply Forall_nil. Qed.

Lemma pairs_map : forall A B (f : A -> B) (R : B -> B -> Prop) l,
  ForallOrdPairs (fun x y => R (f x) (f y)) l -> ForallOrdPairs R (map f l).
Proof.
  intros A B f R l F. induction F as [|x l Fx F IH]; [constructor|]. cbn [map]. constructor; [|exact IH].
  apply Forall_forall. intros y Hy. apply in_map_iff in Hy. destruct Hy as [z [<- Hz]]. rewrite Forall_forall in Fx. exact (Fx z Hz).
Qed.
Lemma pairs_both : forall A (P : A -> Prop) (R R' : A -> A -> Prop) l, Forall P l ->
  (forall x y, P x -> P y -> R x y -> R' x y) -> ForallOrdPairs R l -> ForallOrdPairs R' l.
Proof.
  intros A P R R' l F I O. induction O as [|x l Ox O IH]; [constructor|]. inversion F as [|? ? F1 F2]; subst.
  constructor; [|exact (IH F2)]. rewrite Forall_forall in *. intros y Hy. exact (I x y F1 (F2 y Hy) (Ox y Hy)).
Qed.
Lemma zip : forall A B (R : A -> B -> Prop) (P : B -> Prop) l l', Forall2 R l l' -> Forall P l' ->
  map fst (combine l l') = l /\ Forall (fun z => R (fst z) (snd z) /\ P (snd z)) (combine l l').
Proof.
  intros A B R P l l' F. induction F as [|x y l l' Rx F IH]; intro G; [split; constructor|].
  inversion G as [|? ? G1 G2]; subst. destruct (IH G2) as [E1 E2]. cbn [combine map fst]. split; [rewrite E1; reflexivity|].
  constructor; [split; assumption | exact E2].
Qed.

Lemma unique_weights : forall (wt : decoder hid -> Z) ds rows py w a, Forall2 row_ok ds rows -> Forall sp_row rows ->
  all_pairs (distinct wt) (combine ds rows) = true ->
  NoDup (map wt (filter (effective call_handler py w a) ds)).
Proof.
  intros wt ds rows py w a F S D. destruct (zip _ _ _ _ _ _ F S) as [E P]. apply all_pairs_ok in D.
  apply nodup_pairs, pairs_filter. rewrite <- E. apply pairs_map.
  apply (pairs_both _ _ (fun x y => distinct wt x y = true) _ _ P); [|exact D].
  assert (G : forall d r d', row_ok d r -> sp_row r -> String.eqb (r_text r) sp_text = true -> covers d' = true ->
    effective call_handler py w a d = true -> effective call_handler py w a d' = true -> False).
  { intros d r d' Rd Sr T C A1 A2. unfold effective in A1, A2. apply andb_prop in A1, A2. destruct A1 as [A1 A1'], A2 as [A2 _].
    destruct (Rd py w a A1) as [R1 [R2 R3]]. unfold covers in C. apply andb_prop in C. destruct C as [C1 C2]. apply Z.eqb_eq in C1, C2.
    unfold check in A2. apply Z.eqb_eq in A2.
    pose proof (fld_fixed w _ _ 3 4 A2 ltac:(lia) ltac:(lia) C1) as W. rewrite C2 in W.
    rewrite (Sr T w W) in R2. rewrite R1 in A1'. destruct (observed py r w); try discriminate R2. discriminate A1'. }
  intros [d1 r1] [d2 r2] [R1 S1] [R2 S2] Q A1 A2. cbn [fst snd] in *. unfold distinct in Q. cbn [fst snd] in Q.
  apply orb_prop in Q. destruct Q as [Q|Q]; [apply orb_prop in Q; destruct Q as [Q|Q]; [apply orb_prop in Q; destruct Q as [Q|Q]|]|].
  - apply negb_true_iff, Z.eqb_neq in Q. exact Q.
  - exfalso. unfold effective in A1, A2. apply andb_prop in A1, A2. exact (apart_check d1 d2 w Q (proj1 A1) (proj1 A2)).
  - exfalso. apply andb_prop in Q. exact (G d1 r1 d2 R1 S1 (proj1 Q) (proj2 Q) A1 A2).
  - exfalso. apply andb_prop in Q. exact (G d2 r2 d1 R2 S2 (proj1 Q) (proj2 Q) A2 A1).
Qed.

Lemma distinct16 : all_pairs (distinct weight) (combine sorted16 isa16) = true.
Proof. vm_compute. reflexivity. Qed.
Lemma distinct32 : all_pairs (distinct weight) (combine sorted32 isa32) = true.
Proof. vm_compute. reflexivity. Qed.

Lemma unique_perm : forall py w a ds ds', NoDup (map weight (filter (effective call_handler py w a) (sortw weight ds))) ->
  Permutation ds ds' -> NoDup (map weight (filter (effective call_handler py w a) ds)).
Proof.
  intros py w a ds ds' N P. eapply Permutation_NoDup; [|exact N]. apply Permutation_map, perm_filter, sortw_perm.
Qed.

Lemma tree_order : forall ds t t', Permutation table_decoders ds -> build ds = Ok t' -> DECODER_TREE = Ok t ->
  forall py w a, snd (tree_decode call_handler py (t_16 t') w a) = snd (tree_decode call_handler py (t_16 t) w a) /\
                 snd (tree_decode call_handler py (t_32 t') w a) = snd (tree_decode call_handler py (t_32 t) w a).
Proof.
  intros ds t t' P E' E py w a. rewrite tree_def in E.
  assert (M : Forall made ds).
  { pose proof table_made as M. rewrite Forall_forall in *. intros d Hd. apply M. apply (Permutation_in _ (Permutation_sym P)). exact Hd. }
  destruct (built _ table_decoders table_made) as [t16 [t32 [B O]]]. rewrite B in E. injection E as <-.
  destruct (built _ ds M) as [u16 [u32 [B' O']]]. rewrite B' in E'. injection E' as <-. cbn [t_16 t_32].
  destruct (O call_handler py w a) as [O1 O2]. destruct (O' call_handler py w a) as [O3 O4].
  rewrite O1, O2, O3, O4. rewrite <- (Permutation_length P).
  split; symmetry; apply outcome_perm; try (apply perm_filter; exact P).
  - eapply unique_perm; [|apply Permutation_refl]. rewrite sort16. exact (unique_weights weight _ _ py w a rows16 sp_rows16 distinct16).
  - eapply unique_perm; [|apply Permutation_refl]. rewrite sort32. exact (unique_weights weight _ _ py w a rows32 sp_rows32 distinct32).
Qed.

Lemma ok_inj : forall A (x y : A), Ok x = Ok y -> x = y.
Proof. intros A x y E. injection E as E. exact E. Qed.

(*@doc C26: whatever the order in which the built-in decoders are registered, the tree
can be built and decodes every byte string in the same way. @*)
Lemma C26_order_proof : forall ds ds' t, DECODERS = Ok ds -> Permutation ds ds' -> DECODER_TREE = Ok t ->
  exists t', build ds' = Ok t' /\ forall py data a, bytes data ->
    snd (decode call_handler py t' data a) = snd (decode call_handler py t data a).
Proof.
  intros ds ds' t D P E. rewrite table_ok in D. apply ok_inj in D. subst ds.
  assert (M : Forall made ds').
  { pose proof table_made as M. rewrite Forall_forall in *. intros d Hd. apply M. apply (Permutation_in _ (Permutation_sym P)). exact Hd. }
  destruct (built _ ds' M) as [u16 [u32 [B' _]]]. exists (mkdtree u16 u32). split; [exact B'|].
  pose proof (tree_order ds' t _ P B' E) as T. intros py data a B.
  destruct data as [|b0 [|b1 rest]]; [reflexivity | reflexivity|].
  inversion B as [|? ? B0 C]; subst. inversion C as [|? ? B1 C']; subst.
  destruct (prefix_dec (b1 / 8)) as [Q|Q].
  - destruct rest as [|b2 [|b3 rest]].
    + rewrite (proj1 (proj2 (proj2 (C27_short_proof _ call_handler py t a b0 b1 B0 B1)) Q)).
      exact (proj1 (proj2 (proj2 (C27_short_proof _ call_handler py _ a b0 b1 B0 B1)) Q)).
    + rewrite (proj2 (proj2 (proj2 (C27_short_proof _ call_handler py t a b0 b1 B0 B1)) Q) b2).
      exact (proj2 (proj2 (proj2 (C27_short_proof _ call_handler py _ a b0 b1 B0 B1)) Q) b2).
    + inversion C' as [|? ? B2 D]; subst. inversion D as [|? ? B3 D']; subst.
      rewrite (proj2 (C27_word_proof _ call_handler py t b0 b1 rest a B0 B1) Q b2 b3 B2 B3).
      rewrite (proj2 (C27_word_proof _ call_handler py _ b0 b1 rest a B0 B1) Q b2 b3 B2 B3). apply T.
  - rewrite (proj1 (C27_word_proof _ call_handler py t b0 b1 rest a B0 B1) Q).
    rewrite (proj1 (C27_word_proof _ call_handler py _ b0 b1 rest a B0 B1) Q). apply T.
Qed.
(*@ex
Example C26_order_ex : exists ds, DECODERS = Ok ds /\ List.length ds = 122%nat /\ Permutation ds (rev ds).
Proof. eexists. split; [vm_compute; reflexivity|]. split; [reflexivity | apply Permutation_rev]. Qed.
@*)
