(** * Lemmas about format strings and the masks computed from them *)
From Coq Require Import Lia ZifyBool Permutation Sorted.
From Verif Require Import DecoderModel SpecBits SpecDecoder BitFacts BitOps BitText UtilFacts.

(** ** Characters *)
Lemma ascii_all : forall P : ascii -> bool,
  forallb P (map ascii_of_nat (seq 0 256)) = true -> forall c, P c = true.
Proof.
  intros P H c. rewrite forallb_forall in H. apply H.
  apply in_map_iff. exists (nat_of_ascii c). split; [apply ascii_nat_embedding|].
  apply in_seq. pose proof (nat_ascii_bounded c). lia.
Qed.

Lemma blank_ws : forall c, blank c <-> is_ws c = true.
Proof.
  assert (E : forall c, Bool.eqb (is_ws c) (existsb (Nat.eqb (nat_of_ascii c)) [32; 9; 10; 11; 12; 13]%nat) = true).
  { apply ascii_all. vm_compute. reflexivity. }
  intro c. specialize (E c). apply eqb_prop in E. rewrite E. unfold blank. rewrite existsb_exists.
  split.
  - intro Hin. exists (nat_of_ascii c). split; [exact Hin | apply Nat.eqb_refl].
  - intros [x [Hin He]]. apply Nat.eqb_eq in He. rewrite He. exact Hin.
Qed.

Lemma letter_is : forall c, letter c <-> is_letter c = true.
Proof. intro c. unfold letter, is_letter. cbv zeta. lia. Qed.
Lemma decimal_is : forall c, decimal c <-> is_digit c = true.
Proof. intro c. unfold decimal, is_digit. cbv zeta. lia. Qed.

Lemma ws_facts : forall c, is_ws c = true ->
  is_bit_char c = false /\ is_letter c = false /\ is_digit c = false /\
  Ascii.eqb c "(" = false /\ Ascii.eqb c ")" = false /\ Ascii.eqb c "=" = false.
Proof.
  assert (E : forall c, (negb (is_ws c) || (negb (is_bit_char c) && negb (is_letter c) && negb (is_digit c)
     && negb (Ascii.eqb c "(") && negb (Ascii.eqb c ")") && negb (Ascii.eqb c "="))) = true).
  { apply ascii_all. vm_compute. reflexivity. }
  intros c Hc. specialize (E c). rewrite Hc in E. cbn [negb orb] in E.
  repeat rewrite andb_true_iff in E. repeat rewrite negb_true_iff in E. tauto.
Qed.
Lemma letter_facts : forall c, is_letter c = true ->
  is_bit_char c = false /\ Ascii.eqb c "(" = false /\ Ascii.eqb c "=" = false.
Proof.
  assert (E : forall c, (negb (is_letter c) || (negb (is_bit_char c)
     && negb (Ascii.eqb c "(") && negb (Ascii.eqb c "="))) = true).
  { apply ascii_all. vm_compute. reflexivity. }
  intros c Hc. specialize (E c). rewrite Hc in E. cbn [negb orb] in E.
  repeat rewrite andb_true_iff in E. repeat rewrite negb_true_iff in E. tauto.
Qed.
Lemma digit_facts : forall c, is_digit c = true ->
  Ascii.eqb c "(" = false /\ Ascii.eqb c ")" = false /\ Ascii.eqb c "=" = false /\ is_ws c = false /\
  digit_val c = char_digit c.
Proof.
  assert (E : forall c, (negb (is_digit c) || (negb (Ascii.eqb c "(") && negb (Ascii.eqb c ")")
     && negb (Ascii.eqb c "=") && negb (is_ws c) && (digit_val c =? char_digit c))) = true).
  { apply ascii_all. vm_compute. reflexivity. }
  intros c Hc. specialize (E c). rewrite Hc in E. cbn [negb orb] in E.
  repeat rewrite andb_true_iff in E. repeat rewrite negb_true_iff in E. rewrite Z.eqb_eq in E. tauto.
Qed.
Lemma bin_facts : forall c, bin_char c -> is_bit_char c = true /\ digit_val c = bit_of_char c.
Proof. intros c [-> | -> ]; split; reflexivity. Qed.

(** ** parse_spec on spelled texts *)
Definition parse_from (p : pstate) (l : list ascii) : res (list fitem) :=
  let* p' := ploop p l in pfinish p'.

Lemma from_cons : forall p c l p', pstep p c = Ok p' -> parse_from p (c :: l) = parse_from p' l.
Proof. intros p c l p' E. unfold parse_from. cbn [ploop]. rewrite E. reflexivity. Qed.

Definition flushed (ident : list ascii) : list fitem :=
  if nonempty ident then [FField (of_chars ident) 1] else [].
Lemma flush_rev : forall ident r, rev (flush ident r) = rev r ++ flushed ident.
Proof. intros [|c l] r; unfold flush, flushed; cbn [nonempty]; [symmetry; apply app_nil_r | reflexivity]. Qed.

Lemma from_ws0 : forall w p l, blanks w -> p_state p = 0 -> parse_from p (w ++ l) = parse_from p l.
Proof.
  induction w as [|c w IH]; intros p l Hw Hp; [reflexivity|].
  inversion Hw as [|? ? Hc Hw']; subst. cbn [app].
  apply blank_ws in Hc. destruct (ws_facts c Hc) as [E1 [E2 [_ [E3 _]]]].
  rewrite (from_cons p c (w ++ l) p); [apply IH; assumption|].
  unfold pstep. rewrite Hp. unfold step0. rewrite E1, E2, E3, Hc. reflexivity.
Qed.

Lemma from_ident : forall n i bc bt ex r l, Forall (fun c => letter c \/ decimal c) n ->
  parse_from (mkps 1 i bc bt ex r) (n ++ l) = parse_from (mkps 1 (i ++ n) bc bt ex r) l.
Proof.
  induction n as [|c n IH]; intros i bc bt ex r l Hn; [rewrite app_nil_r; reflexivity|].
  inversion Hn as [|? ? Hc Hn']; subst. cbn [app].
  rewrite (from_cons _ c (n ++ l) (mkps 1 (i ++ [c]) bc bt ex r)).
  - rewrite IH by exact Hn'. rewrite <- app_assoc. reflexivity.
  - unfold pstep. cbn [p_state p_ident p_bitcount p_bits p_expecting p_result].
    destruct Hc as [Hc|Hc].
    + apply letter_is in Hc. destruct (letter_facts c Hc) as [_ [E2 E3]]. rewrite E2, E3, Hc. reflexivity.
    + apply decimal_is in Hc. destruct (digit_facts c Hc) as [E2 [_ [E3 _]]]. rewrite E2, E3, Hc, orb_true_r. reflexivity.
Qed.

(** Reading an identifier in state 0. *)
Lemma from_name : forall n i ex r l, identifier n ->
  parse_from (mkps 0 i [] [] ex r) (n ++ l) = parse_from (mkps 1 n [] [] ex (flush i r)) l.
Proof.
  intros [|c n] i ex r l Hn; [destruct Hn|]. destruct Hn as [Hc Hn]. cbn [app].
  apply letter_is in Hc. destruct (letter_facts c Hc) as [E1 _].
  rewrite (from_cons _ c (n ++ l) (mkps 1 [c] [] [] ex (flush i r))).
  - rewrite from_ident by exact Hn. reflexivity.
  - unfold pstep, step0. cbn [p_state p_ident p_bitcount p_bits p_expecting p_result]. rewrite E1, Hc. reflexivity.
Qed.

Lemma from_digits : forall k i bc bt ex r l, Forall decimal k ->
  parse_from (mkps 3 i bc bt ex r) (k ++ l) = parse_from (mkps 3 i (bc ++ k) bt ex r) l.
Proof.
  induction k as [|c k IH]; intros i bc bt ex r l Hk; [rewrite app_nil_r; reflexivity|].
  inversion Hk as [|? ? Hc Hk']; subst. cbn [app].
  rewrite (from_cons _ c (k ++ l) (mkps 3 i (bc ++ [c]) bt ex r)).
  - rewrite IH by exact Hk'. rewrite <- app_assoc. reflexivity.
  - unfold pstep. cbn [p_state p_ident p_bitcount p_bits p_expecting p_result].
    apply decimal_is in Hc. destruct (digit_facts c Hc) as [_ [E2 [_ _]]]. rewrite E2, Hc. reflexivity.
Qed.

Lemma from_ws2 : forall w i bc bt ex r l, blanks w ->
  parse_from (mkps 2 i bc bt ex r) (w ++ l) = parse_from (mkps 2 i bc bt ex r) l.
Proof.
  induction w as [|c w IH]; intros i bc bt ex r l Hw; [reflexivity|].
  inversion Hw as [|? ? Hc Hw']; subst. cbn [app].
  apply blank_ws in Hc. destruct (ws_facts c Hc) as [_ [_ [E1 [_ [E2 _]]]]].
  rewrite (from_cons _ c (w ++ l) (mkps 2 i bc bt ex r)); [apply IH; assumption|].
  unfold pstep. cbn [p_state p_ident p_bitcount p_bits p_expecting p_result]. rewrite E1, E2, Hc. reflexivity.
Qed.
Lemma from_ws4 : forall w i bc bt ex r l, blanks w ->
  parse_from (mkps 4 i bc bt ex r) (w ++ l) = parse_from (mkps 4 i bc bt ex r) l.
Proof.
  induction w as [|c w IH]; intros i bc bt ex r l Hw; [reflexivity|].
  inversion Hw as [|? ? Hc Hw']; subst. cbn [app].
  apply blank_ws in Hc. destruct (ws_facts c Hc) as [_ [_ [E1 [_ [E2 _]]]]].
  rewrite (from_cons _ c (w ++ l) (mkps 4 i bc bt ex r)); [apply IH; assumption|].
  unfold pstep. cbn [p_state p_ident p_bitcount p_bits p_expecting p_result]. rewrite E2, Hc. reflexivity.
Qed.

(** Closing a width: digits, whitespace, parenthesis. *)
Lemma from_close : forall w i bc ex r l, blanks w ->
  parse_from (mkps 3 i bc [] ex r) (w ++ ")"%char :: l) =
  parse_from (mkps 0 [] [] [] ex (FField (of_chars i) (parse_dec bc) :: r)) l.
Proof.
  intros [|c w] i bc ex r l Hw; [reflexivity|].
  inversion Hw as [|? ? Hc Hw']; subst. cbn [app].
  apply blank_ws in Hc. destruct (ws_facts c Hc) as [_ [_ [E1 [_ [E2 _]]]]].
  rewrite (from_cons _ c _ (mkps 4 i bc [] ex r)).
  - rewrite from_ws4 by exact Hw'. reflexivity.
  - unfold pstep. cbn [p_state p_ident p_bitcount p_bits p_expecting p_result]. rewrite E2, E1. reflexivity.
Qed.

(** Whitespace and an opening parenthesis after an identifier. *)
Lemma from_open : forall w i ex r l, blanks w ->
  exists ex', parse_from (mkps 1 i [] [] ex r) (w ++ "("%char :: l) = parse_from (mkps 2 i [] [] ex' r) l.
Proof.
  intros [|c w] i ex r l Hw; [exists ex; reflexivity|].
  inversion Hw as [|? ? Hc Hw']; subst. cbn [app].
  apply blank_ws in Hc. destruct (ws_facts c Hc) as [E0 [E1 [E2 [E3 [E4 E5]]]]].
  exists true. rewrite (from_cons _ c _ (mkps 0 i [] [] true r)).
  - rewrite (from_ws0 w _ _ Hw') by reflexivity. reflexivity.
  - unfold pstep, step0. cbn [p_state p_ident p_bitcount p_bits p_expecting p_result].
    rewrite E0, E1, E2, E3, E5, Hc. reflexivity.
Qed.

Lemma from_bits : forall b i bc bt ex r l, Forall bin_char b ->
  parse_from (mkps 5 i bc bt ex r) (b ++ l) = parse_from (mkps 5 i bc (bt ++ b) ex r) l.
Proof.
  induction b as [|c b IH]; intros i bc bt ex r l Hb; [rewrite app_nil_r; reflexivity|].
  inversion Hb as [|? ? Hc Hb']; subst. cbn [app].
  rewrite (from_cons _ c (b ++ l) (mkps 5 i bc (bt ++ [c]) ex r)).
  - rewrite IH by exact Hb'. rewrite <- app_assoc. reflexivity.
  - unfold pstep. cbn [p_state p_ident p_bitcount p_bits p_expecting p_result].
    destruct (bin_facts c Hc) as [E _]. rewrite E. reflexivity.
Qed.

Lemma parse_dec_be : forall k, Forall decimal k -> parse_dec k = be_number 10 (map char_digit k).
Proof.
  intros k Hk. unfold parse_dec, be_number. generalize 0. induction Hk as [|c k Hc Hk IH]; intro a; [reflexivity|].
  cbn [fold_left map number]. apply decimal_is in Hc. destruct (digit_facts c Hc) as [_ [_ [_ [_ E]]]].
  rewrite E. apply IH.
Qed.

Lemma bits_value : forall b, bitseq b ->
  bs_init (VStr (of_chars b)) None = Ok (bits (Z.of_nat (List.length b)) (be_number 2 (map bit_of_char b))).
Proof.
  intros b [Hne Hb]. assert (T : bin_text (of_chars b)).
  { split; [destruct b; [congruence | discriminate] | rewrite chars_of_chars; exact Hb]. }
  rewrite init_text by exact T. pose proof (text_number_bound (of_chars b)) as B.
  unfold text_bits, strlen in B |- *. rewrite chars_of_chars, length_of_chars in B. rewrite chars_of_chars, length_of_chars.
  rewrite bits_small by exact B. reflexivity.
Qed.

Lemma identifier_nonempty : forall n, identifier n -> nonempty n = true.
Proof. intros [|c n]; [intros []| reflexivity]. Qed.
Lemma bitseq_nonempty : forall n, bitseq n -> nonempty n = true.
Proof. intros [|c n] [H _]; [congruence | reflexivity]. Qed.

Lemma spelled_parse : forall items l, spelled items l -> forall i ex r,
  parse_from (mkps 0 i [] [] ex r) l = Ok (rev r ++ flushed i ++ items).
Proof.
  intros items l H. induction H as [w Hw | w c rest l Hw Hc H IH | w n rest l Hw Hn Hs H IH
    | w n w1 w2 k w3 rest l Hw Hn Hw1 Hw2 Hk Hw3 H IH | w n b rest l Hw Hn Hb Hs H IH]; intros i ex r.
  - rewrite <- (app_nil_r w), from_ws0 by (assumption || reflexivity).
    unfold parse_from. cbn [ploop bind]. unfold pfinish, flushed. cbn [p_ident p_bits p_bitcount p_result].
    destruct (nonempty i); cbn [nonempty rev app]; [reflexivity | rewrite app_nil_r; reflexivity].
  - rewrite from_ws0 by (assumption || reflexivity). cbn [app].
    destruct (bin_facts c Hc) as [E1 E2].
    rewrite (from_cons _ c l (mkps 0 [] [] [] false (FBit (bit_of_char c) :: flush i r))).
    + rewrite IH. cbn [rev]. rewrite flush_rev. unfold flushed at 2. cbn [nonempty app].
      rewrite <- !app_assoc. reflexivity.
    + unfold pstep, step0. cbn [p_state p_ident p_bitcount p_bits p_expecting p_result]. rewrite E1, E2. reflexivity.
  - rewrite from_ws0 by (assumption || reflexivity). rewrite from_name by exact Hn.
    destruct l as [|c l].
    + unfold parse_from. cbn [ploop bind]. unfold pfinish. cbn [p_ident p_bits p_bitcount p_result].
      rewrite (identifier_nonempty n Hn). cbn [nonempty rev]. rewrite flush_rev.
      specialize (IH [] ex []). unfold parse_from in IH. cbn [ploop bind pfinish p_ident p_bits nonempty p_result rev app flushed] in IH.
      injection IH as <-. rewrite <- app_assoc. reflexivity.
    + cbn [separated] in Hs. apply blank_ws in Hs. destruct (ws_facts c Hs) as [E0 [E1 [E2 [E3 [E4 E5]]]]].
      rewrite (from_cons _ c l (mkps 0 n [] [] true (flush i r))).
      * assert (E : parse_from (mkps 0 n [] [] true (flush i r)) (c :: l) = parse_from (mkps 0 n [] [] true (flush i r)) l).
        { apply from_cons. unfold pstep, step0. cbn [p_state p_ident p_bitcount p_bits p_expecting p_result].
          rewrite E0, E1, E3, Hs. reflexivity. }
        rewrite <- E, IH, flush_rev. unfold flushed at 2. rewrite (identifier_nonempty n Hn).
        rewrite <- app_assoc. reflexivity.
      * unfold pstep, step0. cbn [p_state p_ident p_bitcount p_bits p_expecting p_result].
        rewrite E0, E1, E2, E3, E5, Hs. reflexivity.
  - rewrite from_ws0 by (assumption || reflexivity). rewrite from_name by exact Hn. cbn [app].
    destruct (from_open w1 n ex (flush i r) (w2 ++ k ++ w3 ++ ")"%char :: l) Hw1) as [ex' E]. rewrite E.
    rewrite from_ws2 by exact Hw2. destruct Hk as [Hne Hk]. destruct k as [|c k]; [congruence|].
    inversion Hk as [|? ? Hc Hk']; subst. cbn [app].
    rewrite (from_cons _ c _ (mkps 3 n [c] [] ex' (flush i r))).
    + rewrite from_digits by exact Hk'. rewrite from_close by exact Hw3.
      rewrite IH. cbn [rev app]. unfold flushed at 1. cbn [nonempty app].
      rewrite flush_rev, parse_dec_be by exact Hk. rewrite <- !app_assoc. reflexivity.
    + unfold pstep. cbn [p_state p_ident p_bitcount p_bits p_expecting p_result].
      apply decimal_is in Hc. rewrite Hc. reflexivity.
  - rewrite from_ws0 by (assumption || reflexivity). rewrite from_name by exact Hn. cbn [app].
    rewrite (from_cons _ "="%char _ (mkps 5 n [] [] ex (flush i r))) by reflexivity.
    rewrite from_bits by apply Hb. cbn [app]. destruct l as [|c l].
    + unfold parse_from. cbn [ploop bind]. unfold pfinish. cbn [p_ident p_bits p_bitcount p_result].
      rewrite (identifier_nonempty n Hn), (bitseq_nonempty b Hb), bits_value by exact Hb. cbn [bind rev].
      rewrite flush_rev.
      specialize (IH [] ex []). unfold parse_from in IH. cbn [ploop bind pfinish p_ident p_bits nonempty p_result rev app flushed] in IH.
      injection IH as <-. rewrite <- app_assoc. reflexivity.
    + cbn [separated] in Hs. apply blank_ws in Hs. destruct (ws_facts c Hs) as [E0 [E1 [E2 [E3 [E4 E5]]]]].
      rewrite (from_cons _ c l (mkps 0 [] [] [] ex
         (FConst (of_chars n) (bits (Z.of_nat (List.length b)) (be_number 2 (map bit_of_char b))) :: flush i r))).
      * set (st := mkps 0 _ _ _ _ _).
        assert (E : parse_from st (c :: l) = parse_from st l).
        { apply from_cons. unfold st, pstep, step0. cbn [p_state p_ident p_bitcount p_bits p_expecting p_result].
          rewrite E0, E1, E3, Hs. reflexivity. }
        rewrite <- E. unfold st. rewrite IH. cbn [rev]. rewrite flush_rev. unfold flushed at 2. cbn [nonempty app].
        rewrite <- !app_assoc. reflexivity.
      * unfold pstep. cbn [p_state p_ident p_bitcount p_bits p_expecting p_result].
        rewrite E0. rewrite bits_value by exact Hb. reflexivity.
Qed.

(** ** What any accepted text yields *)
Definition item_ok (f : fitem) : Prop :=
  match f with FBit b => b = 0 \/ b = 1 | FField _ s => 0 <= s | FConst _ v => wf v end.
Definition ps_ok (p : pstate) : Prop :=
  Forall item_ok (p_result p) /\ Forall (fun c => is_digit c = true) (p_bitcount p).

Lemma parse_dec_nonneg : forall l, Forall (fun c => is_digit c = true) l -> 0 <= parse_dec l.
Proof.
  intros l H. unfold parse_dec. assert (G : forall a, 0 <= a -> 0 <= fold_left (fun a c => a * 10 + digit_val c) l a); [|apply G; lia].
  induction H as [|c l Hc H IH]; intros a Ha; [exact Ha|]. cbn [fold_left]. apply IH.
  unfold is_digit in Hc. cbv zeta in Hc. unfold digit_val. lia.
Qed.

Lemma flush_ok : forall i r, Forall item_ok r -> Forall item_ok (flush i r).
Proof. intros i r H. unfold flush. destruct (nonempty i); [apply Forall_cons; [cbn; lia | exact H] | exact H]. Qed.

Lemma step0_ok : forall p c p', ps_ok p -> step0 p c = Ok p' -> ps_ok p'.
Proof.
  intros p c p' [Hr Hb] E. unfold step0 in E.
  destruct (is_bit_char c) eqn:E1.
  - injection E as <-. split; [|exact Hb]. apply Forall_cons; [|apply flush_ok; exact Hr].
    unfold is_bit_char in E1. apply orb_true_iff in E1. destruct E1 as [E1|E1]; apply Ascii.eqb_eq in E1; subst c; cbn; [left|right]; reflexivity.
  - destruct (is_letter c); [injection E as <-; split; [apply flush_ok; exact Hr | exact Hb]|].
    destruct (_ && _)%bool; [injection E as <-; split; assumption|].
    destruct (is_ws c); [injection E as <-; split; assumption | discriminate].
Qed.

Lemma pstep_ok : forall p c p', ps_ok p -> pstep p c = Ok p' -> ps_ok p'.
Proof.
  intros p c p' Hp E. assert (Hp' := Hp). destruct Hp as [Hr Hb]. unfold pstep in E.
  assert (D5 : (if is_bit_char c then Ok (mkps 5 (p_ident p) (p_bitcount p) (p_bits p ++ [c]) (p_expecting p) (p_result p))
     else let* b := bs_init (VStr (of_chars (p_bits p))) None in
      Ok (mkps 0 [] (p_bitcount p) [] (p_expecting p) (FConst (of_chars (p_ident p)) b :: p_result p))) = Ok p' -> ps_ok p').
  { destruct (is_bit_char c); [intro E'; injection E' as <-; split; assumption|].
    destruct (bs_init (VStr (of_chars (p_bits p))) None) as [b|e] eqn:Eb; [|discriminate]. intro E'. cbn [bind] in E'.
    injection E' as <-. split; [apply Forall_cons; [exact (init_wf _ _ _ Eb) | exact Hr] | exact Hb]. }
  assert (DF : forall n, Forall item_ok (FField n (parse_dec (p_bitcount p)) :: p_result p)).
  { intro n. apply Forall_cons; [apply parse_dec_nonneg; exact Hb | exact Hr]. }
  destruct (p_state p) as [|[[|[]|]|[[]|[]|]|]|]; try exact (D5 E).
  - exact (step0_ok _ _ _ Hp' E).
  - destruct (Ascii.eqb c ")"); [injection E as <-; split; [apply DF | apply Forall_nil]|].
    destruct (negb (is_digit c)) eqn:Ed; injection E as <-; split; cbn [p_result p_bitcount]; try assumption.
    apply Forall_app; split; [exact Hb | apply Forall_cons; [apply negb_false_iff; exact Ed | apply Forall_nil]].
  - destruct (Ascii.eqb c ")"); [injection E as <-; split; [apply DF | apply Forall_nil]|].
    destruct (is_ws c); [injection E as <-; exact Hp' | discriminate].
  - destruct (is_digit c) eqn:Ed; [injection E as <-; split; [exact Hr | apply Forall_cons; [exact Ed | apply Forall_nil]]|].
    destruct (Ascii.eqb c ")"); [injection E as <-; split; [exact Hr | apply Forall_cons; [reflexivity | apply Forall_nil]]|].
    destruct (is_ws c); [injection E as <-; exact Hp' | discriminate].
  - destruct (Ascii.eqb c "("); [injection E as <-; split; assumption|].
    destruct (Ascii.eqb c "="); [injection E as <-; split; assumption|].
    destruct (negb _); [|injection E as <-; split; assumption].
    apply (step0_ok _ _ _) in E; [exact E | split; assumption].
Qed.

Lemma parse_items_ok : forall s fmt, parse_spec s = Ok fmt -> Forall item_ok fmt.
Proof.
  intros s fmt E. unfold parse_spec in E.
  assert (G : forall l p p', ps_ok p -> ploop p l = Ok p' -> ps_ok p').
  { induction l as [|c l IH]; intros p p' Hp El; cbn [ploop] in El; [injection El as <-; exact Hp|].
    destruct (pstep p c) as [q|e] eqn:Eq; [|discriminate]. cbn [bind] in El.
    exact (IH _ _ (pstep_ok _ _ _ Hp Eq) El). }
  destruct (ploop (mkps 0 [] [] [] false []) (chars s)) as [p|e] eqn:El; [|discriminate]. cbn [bind] in E.
  assert (I0 : ps_ok (mkps 0 [] [] [] false [])) by (split; apply Forall_nil).
  apply G in El; [|exact I0]. destruct El as [Hr Hb]. unfold pfinish in E.
  destruct (nonempty (p_ident p)).
  - destruct (nonempty (p_bits p)).
    + destruct (bs_init (VStr (of_chars (p_bits p))) None) as [b|e] eqn:Eb; [|discriminate]. cbn [bind] in E.
      injection E as <-. apply (Forall_rev (l := FConst _ b :: p_result p)), Forall_cons; [exact (init_wf _ _ _ Eb) | exact Hr].
    + injection E as <-. apply (Forall_rev (l := FField _ _ :: p_result p)), Forall_cons; [|exact Hr]. cbn [item_ok]. apply parse_dec_nonneg.
      destruct (nonempty (p_bitcount p)); [exact Hb | apply Forall_cons; [reflexivity | apply Forall_nil]].
  - injection E as <-. apply Forall_rev. exact Hr.
Qed.

(** Parsing raises nothing but ValueError. *)
Lemma step0_err : forall p c e, step0 p c = Err e -> e = ValueError.
Proof.
  intros p c e E. unfold step0 in E.
  destruct (is_bit_char c); [discriminate|]. destruct (is_letter c); [discriminate|].
  destruct (_ && _)%bool; [discriminate|]. destruct (is_ws c); [discriminate|]. injection E as <-. reflexivity.
Qed.
Lemma init_str_err : forall s e, bs_init (VStr s) None = Err e -> e = ValueError.
Proof.
  intros s e E. unfold bs_init, bs_raw in E.
  destruct (int_base2 s) as [z|e0] eqn:Ez; cbn [bind] in E.
  - rewrite finish_ok in E by (unfold strlen; lia). discriminate.
  - injection E as <-. unfold int_base2 in Ez. cbv zeta in Ez.
    match type of Ez with match ?X with _ => _ end = _ => destruct X as [z|] end; congruence.
Qed.
Lemma parse_err : forall s e, parse_spec s = Err e -> e = ValueError.
Proof.
  intros s e E. unfold parse_spec in E.
  assert (S5 : forall p c e, (if is_bit_char c then Ok (mkps 5 (p_ident p) (p_bitcount p) (p_bits p ++ [c]) (p_expecting p) (p_result p))
     else let* b := bs_init (VStr (of_chars (p_bits p))) None in
      Ok (mkps 0 [] (p_bitcount p) [] (p_expecting p) (FConst (of_chars (p_ident p)) b :: p_result p))) = Err e -> e = ValueError).
  { intros p c e' E'. destruct (is_bit_char c); [discriminate|].
    destruct (bs_init (VStr (of_chars (p_bits p))) None) as [b|e0] eqn:Eb; [discriminate|]. cbn [bind] in E'.
    injection E' as <-. exact (init_str_err _ _ Eb). }
  assert (S : forall p c e, pstep p c = Err e -> e = ValueError).
  { intros p c e' E'. unfold pstep in E'.
    destruct (p_state p) as [|[[|[]|]|[[]|[]|]|]|]; try exact (S5 _ _ _ E').
    - exact (step0_err _ _ _ E').
    - destruct (Ascii.eqb c ")"); [discriminate|]. destruct (negb _); discriminate.
    - destruct (Ascii.eqb c ")"); [discriminate|]. destruct (is_ws c); [discriminate|]. injection E' as <-; reflexivity.
    - destruct (is_digit c); [discriminate|]. destruct (Ascii.eqb c ")"); [discriminate|].
      destruct (is_ws c); [discriminate|]. injection E' as <-; reflexivity.
    - destruct (Ascii.eqb c "("); [discriminate|]. destruct (Ascii.eqb c "="); [discriminate|].
      destruct (negb _); [exact (step0_err _ _ _ E') | discriminate]. }
  assert (G : forall l p e, ploop p l = Err e -> e = ValueError).
  { induction l as [|c l IH]; intros p e' El; cbn [ploop] in El; [discriminate|].
    destruct (pstep p c) as [q|e0] eqn:Eq; cbn [bind] in El; [exact (IH _ _ El)|].
    injection El as <-. exact (S _ _ _ Eq). }
  destruct (ploop (mkps 0 [] [] [] false []) (chars s)) as [p|e0] eqn:El; cbn [bind] in E.
  - unfold pfinish in E. destruct (nonempty (p_ident p)); [|discriminate].
    destruct (nonempty (p_bits p)); [|discriminate].
    destruct (bs_init (VStr (of_chars (p_bits p))) None) as [b|e1] eqn:Eb; cbn [bind] in E; [discriminate|].
    injection E as <-. exact (init_str_err _ _ Eb).
  - injection E as <-. exact (G _ _ _ El).
Qed.

(** ** Masks and words, least significant item first *)
Fixpoint le_mask (l : list fitem) : Z :=
  match l with
  | [] => 0
  | f :: l' => match f with FBit _ => 1 | FField _ _ => 0 | FConst _ v => bm v end + 2 ^ item_size f * le_mask l'
  end.
Fixpoint le_match (l : list fitem) : Z :=
  match l with
  | [] => 0
  | f :: l' => match f with FBit b => b | FField _ _ => 0 | FConst _ v => bv v end + 2 ^ item_size f * le_match l'
  end.
Fixpoint le_encode (vals : string -> Z) (l : list fitem) : Z :=
  match l with [] => 0 | f :: l' => item_value vals f + 2 ^ item_size f * le_encode vals l' end.
Fixpoint le_fields (i : Z) (l : list fitem) : fields :=
  match l with
  | [] => []
  | f :: l' => match f with FBit _ => [] | FField n s => [(n, (i, s))] | FConst n v => [(n, (i, bw v))] end
               ++ le_fields (i + item_size f) l'
  end.

Lemma size_nonneg : forall f, item_ok f -> 0 <= item_size f.
Proof. intros [b|n s|n v] H; cbn [item_size item_ok] in *; [lia | exact H | apply H]. Qed.
Lemma total_nonneg : forall l, Forall item_ok l -> 0 <= total_size l.
Proof.
  intros l H. unfold total_size. induction H as [|f l Hf H IH]; cbn [map fold_right]; [lia|].
  pose proof (size_nonneg f Hf). lia.
Qed.
Lemma total_cons : forall f l, total_size (f :: l) = item_size f + total_size l.
Proof. reflexivity. Qed.
Lemma total_app : forall a b, total_size (a ++ b) = total_size a + total_size b.
Proof.
  induction a as [|f a IH]; intro b; [reflexivity|].
  cbn [app]. rewrite !total_cons, IH. lia.
Qed.
Lemma total_rev : forall l, total_size (rev l) = total_size l.
Proof.
  induction l as [|f l IH]; [reflexivity|]. cbn [rev]. rewrite total_app, IH, !total_cons.
  change (total_size []) with 0. lia.
Qed.

Lemma encode_app : forall vals l f, encode vals (l ++ [f]) = encode vals l * 2 ^ item_size f + item_value vals f.
Proof. intros vals l f. unfold encode. rewrite fold_left_app. reflexivity. Qed.
Lemma encode_rev : forall vals l, encode vals (rev l) = le_encode vals l.
Proof.
  intros vals. induction l as [|f l IH]; [reflexivity|]. cbn [rev le_encode]. rewrite encode_app, IH. ring.
Qed.
Lemma encode_le : forall vals fmt, encode vals fmt = le_encode vals (rev fmt).
Proof. intros vals fmt. rewrite <- encode_rev, rev_involutive. reflexivity. Qed.

Definition in_bits (w v : Z) : Prop := 0 <= v < 2 ^ w.
Lemma glue_bound : forall a b x y, 0 <= a -> 0 <= b -> 0 <= x < 2 ^ a -> 0 <= y < 2 ^ b ->
  0 <= x + 2 ^ a * y < 2 ^ (a + b).
Proof. intros a b x y Ha Hb Hx Hy. rewrite pow2_add by assumption. nia. Qed.

Lemma item_mask_bound : forall f, item_ok f ->
  0 <= match f with FBit _ => 1 | FField _ _ => 0 | FConst _ v => bm v end < 2 ^ item_size f.
Proof.
  intros [b|n s|n v] H; cbn [item_size item_ok] in *.
  - change (2 ^ 1) with 2. lia.
  - pose proof (pow2_pos s H). lia.
  - destruct H as [H1 [H2 H3]]. rewrite H3. pose proof (pow2_pos (bw v) H1). lia.
Qed.
Lemma item_match_bound : forall f, item_ok f ->
  0 <= match f with FBit b => b | FField _ _ => 0 | FConst _ v => bv v end < 2 ^ item_size f.
Proof.
  intros [b|n s|n v] H; cbn [item_size item_ok] in *.
  - change (2 ^ 1) with 2. lia.
  - pose proof (pow2_pos s H). lia.
  - apply H.
Qed.
Lemma item_value_bound : forall vals f, item_ok f -> 0 <= item_value vals f < 2 ^ item_size f.
Proof.
  intros vals [b|n s|n v] H; cbn [item_size item_value item_ok] in *.
  - change (2 ^ 1) with 2. lia.
  - apply Z.mod_pos_bound, pow2_pos, H.
  - apply H.
Qed.

Lemma le_mask_bound : forall l, Forall item_ok l -> 0 <= le_mask l < 2 ^ total_size l.
Proof.
  intros l H. induction H as [|f l Hf H IH]; [cbn; lia|]. cbn [le_mask]. rewrite total_cons.
  apply glue_bound; [apply size_nonneg; exact Hf | apply total_nonneg; exact H | apply item_mask_bound; exact Hf | exact IH].
Qed.
Lemma le_match_bound : forall l, Forall item_ok l -> 0 <= le_match l < 2 ^ total_size l.
Proof.
  intros l H. induction H as [|f l Hf H IH]; [cbn; lia|]. cbn [le_match]. rewrite total_cons.
  apply glue_bound; [apply size_nonneg; exact Hf | apply total_nonneg; exact H | apply item_match_bound; exact Hf | exact IH].
Qed.
Lemma le_encode_bound : forall vals l, Forall item_ok l -> 0 <= le_encode vals l < 2 ^ total_size l.
Proof.
  intros vals l H. induction H as [|f l Hf H IH]; [cbn; lia|]. cbn [le_encode]. rewrite total_cons.
  apply glue_bound; [apply size_nonneg; exact Hf | apply total_nonneg; exact H | apply item_value_bound; exact Hf | exact IH].
Qed.

Lemma shift_glue : forall m k s i y, 0 <= i -> 0 <= s -> 0 <= k < 2 ^ s -> 0 <= y ->
  Z.lor (Z.lor m (Z.shiftl k i)) (Z.shiftl y (i + s)) = Z.lor m (Z.shiftl (k + 2 ^ s * y) i).
Proof.
  intros m k s i y Hi Hs Hk Hy. rewrite <- Z.lor_assoc. f_equal.
  rewrite <- (lor_byte k y s Hs Hk), Z.shiftl_lor. f_equal. rewrite Z.shiftl_shiftl by lia. f_equal. lia.
Qed.

Lemma dict_set_new : forall (V : Type) k (v : V) d, ~ In k (map fst d) -> dict_set String.eqb k v d = d ++ [(k, v)].
Proof.
  intros V k v. induction d as [|[k' v'] d IH]; intro H; [reflexivity|]. cbn [dict_set app map fst In] in *.
  destruct (String.eqb_spec k k') as [E|E]; [exfalso; apply H; left; congruence|].
  rewrite IH; [reflexivity | tauto].
Qed.

Lemma fold_fmt : forall off l i mask mtch d, Forall item_ok l -> 0 <= i + off ->
  NoDup (map fst d ++ names l) ->
  fold_left (fmt_step off) l (i, mask, mtch, d) =
  (i + total_size l, Z.lor mask (Z.shiftl (le_mask l) (i + off)), Z.lor mtch (Z.shiftl (le_match l) (i + off)),
   d ++ le_fields (i + off) l).
Proof.
  intros off. induction l as [|f l IH]; intros i mask mtch d H Hi Hn.
  - cbn [fold_left le_mask le_match le_fields]. unfold total_size. cbn [map fold_right].
    rewrite !Z.shiftl_0_l, !Z.lor_0_r, app_nil_r, Z.add_0_r. reflexivity.
  - inversion H as [|? ? Hf H']; subst. pose proof (size_nonneg f Hf) as Hs.
    assert (St : fmt_step off (i, mask, mtch, d) f =
      (i + item_size f, Z.lor mask (Z.shiftl match f with FBit _ => 1 | FField _ _ => 0 | FConst _ v => bm v end (i + off)),
       Z.lor mtch (Z.shiftl match f with FBit b => b | FField _ _ => 0 | FConst _ v => bv v end (i + off)),
       d ++ match f with FBit _ => [] | FField n s => [(n, (i + off, s))] | FConst n v => [(n, (i + off, bw v))] end)).
    { destruct f as [b|n s|n v]; cbn [fmt_step item_size].
      - rewrite app_nil_r. reflexivity.
      - rewrite Z.shiftl_0_l, !Z.lor_0_r, dict_set_new; [reflexivity|].
        cbn [names flat_map item_names app] in Hn. apply NoDup_remove_2 in Hn. intro C. apply Hn. apply in_or_app. left. exact C.
      - rewrite dict_set_new; [reflexivity|].
        cbn [names flat_map item_names app] in Hn. apply NoDup_remove_2 in Hn. intro C. apply Hn. apply in_or_app. left. exact C. }
    cbn [fold_left]. rewrite St, IH.
    + rewrite total_cons. cbn [le_mask le_match le_fields]. rewrite <- app_assoc.
      replace (i + item_size f + off) with (i + off + item_size f) by lia.
      rewrite !shift_glue; try assumption; try apply item_mask_bound; try apply item_match_bound; try assumption;
        try apply le_mask_bound; try apply le_match_bound; try assumption.
      rewrite Z.add_assoc. reflexivity.
    + exact H'.
    + lia.
    + destruct f as [b|n s|n v]; cbn [names flat_map item_names app] in Hn |- *.
      * rewrite app_nil_r. exact Hn.
      * rewrite map_app, <- app_assoc. exact Hn.
      * rewrite map_app, <- app_assoc. exact Hn.
Qed.

(** Without the condition on names: size, mask and match. *)
Lemma fold_fmt_masks : forall off l i mask mtch d, Forall item_ok l -> 0 <= i + off ->
  exists d', fold_left (fmt_step off) l (i, mask, mtch, d) =
  (i + total_size l, Z.lor mask (Z.shiftl (le_mask l) (i + off)), Z.lor mtch (Z.shiftl (le_match l) (i + off)), d').
Proof.
  intros off. induction l as [|f l IH]; intros i mask mtch d H Hi.
  - exists d. cbn [fold_left le_mask le_match]. unfold total_size. cbn [map fold_right].
    rewrite !Z.shiftl_0_l, !Z.lor_0_r, Z.add_0_r. reflexivity.
  - inversion H as [|? ? Hf H']; subst. pose proof (size_nonneg f Hf) as Hs.
    assert (St : exists d1, fmt_step off (i, mask, mtch, d) f =
      (i + item_size f, Z.lor mask (Z.shiftl match f with FBit _ => 1 | FField _ _ => 0 | FConst _ v => bm v end (i + off)),
       Z.lor mtch (Z.shiftl match f with FBit b => b | FField _ _ => 0 | FConst _ v => bv v end (i + off)), d1)).
    { destruct f as [b|n s|n v]; cbn [fmt_step item_size]; eexists; [reflexivity | | reflexivity].
      rewrite Z.shiftl_0_l, !Z.lor_0_r. reflexivity. }
    destruct St as [d1 St]. cbn [fold_left]. rewrite St.
    destruct (IH (i + item_size f) (Z.lor mask (Z.shiftl match f with FBit _ => 1 | FField _ _ => 0 | FConst _ v => bm v end (i + off)))
      (Z.lor mtch (Z.shiftl match f with FBit b => b | FField _ _ => 0 | FConst _ v => bv v end (i + off))) d1 H') as [d' E]; [lia|].
    exists d'. rewrite E. cbn [le_mask le_match]. rewrite total_cons.
    replace (i + item_size f + off) with (i + off + item_size f) by lia.
    rewrite !shift_glue; try assumption; try apply item_mask_bound; try apply item_match_bound; try assumption;
      try apply le_mask_bound; try apply le_match_bound; try assumption.
    rewrite Z.add_assoc. reflexivity.
Qed.

Lemma process_ok : forall l off, Forall item_ok l -> 0 <= off -> NoDup (names l) -> total_size l = 16 ->
  process_fmt l off = Ok (Z.shiftl (le_mask l) off, Z.shiftl (le_match l) off, le_fields off l).
Proof.
  intros l off H Hoff Hn Ht. unfold process_fmt. rewrite fold_fmt; [|exact H | lia | exact Hn].
  rewrite !Z.lor_0_l, Ht. reflexivity.
Qed.
Lemma process_masks : forall l off mask mtch d, Forall item_ok l -> 0 <= off -> process_fmt l off = Ok (mask, mtch, d) ->
  total_size l = 16 /\ mask = Z.shiftl (le_mask l) off /\ mtch = Z.shiftl (le_match l) off.
Proof.
  intros l off mask mtch d H Hoff E. unfold process_fmt in E.
  destruct (fold_fmt_masks off l 0 0 0 [] H) as [d' Ef]; [lia|]. unfold fields in *; rewrite Ef in E.
  rewrite !Z.lor_0_l in E. rewrite !Z.add_0_l in E. destruct (Z.eqb_spec (total_size l) 16) as [Ht|Ht]; [|discriminate].
  injection E as <- <- _. repeat split. exact Ht.
Qed.
Lemma process_bad : forall l off, Forall item_ok l -> 0 <= off -> total_size l <> 16 -> process_fmt l off = Err AssertionError.
Proof.
  intros l off H Hoff Ht. unfold process_fmt.
  destruct (fold_fmt_masks off l 0 0 0 [] H) as [d' Ef]; [lia|]. unfold fields in *; rewrite Ef.
  rewrite Z.add_0_l. destruct (Z.eqb_spec (total_size l) 16); [contradiction | reflexivity].
Qed.

(** ** Matching *)
Lemma land_glue : forall w s m y, 0 <= s -> 0 <= m < 2 ^ s -> 0 <= y ->
  Z.land w (m + 2 ^ s * y) = Z.land (w mod 2 ^ s) m + 2 ^ s * Z.land (w / 2 ^ s) y.
Proof.
  intros w s m y Hs Hm Hy.
  assert (B : 0 <= Z.land (w mod 2 ^ s) m < 2 ^ s).
  { split; [apply Z.land_nonneg; right; lia|].
    assert (Hw : 0 <= w mod 2 ^ s < 2 ^ s) by (apply Z.mod_pos_bound, pow2_pos, Hs).
    destruct (Z.eq_dec (Z.land (w mod 2 ^ s) m) 0) as [->|N]; [apply pow2_pos, Hs|].
    destruct (Z_lt_le_dec (Z.land (w mod 2 ^ s) m) (2 ^ s)) as [L|L]; [exact L|exfalso].
    assert (T : Z.land (w mod 2 ^ s) m mod 2 ^ s = Z.land (w mod 2 ^ s) m).
    { rewrite <- Z.land_ones by exact Hs. rewrite <- Z.land_assoc. rewrite (Z.land_ones m) by exact Hs.
      rewrite (Z.mod_small m) by exact Hm. reflexivity. }
    pose proof (Z.mod_pos_bound (Z.land (w mod 2 ^ s) m) (2 ^ s) (pow2_pos s Hs)). lia. }
  rewrite <- (lor_byte _ _ s Hs B), <- (lor_byte _ y s Hs Hm).
  apply Z.bits_inj'. intros i Hi. rewrite Z.land_spec, !Z.lor_spec, Z.land_spec.
  destruct (Z_lt_le_dec i s) as [L|L].
  - rewrite !Z.shiftl_spec_low by exact L. rewrite !orb_false_r. rewrite testbit_mod by lia.
    replace (i <? s) with true by lia. reflexivity.
  - rewrite !Z.shiftl_spec by exact Hi. rewrite Z.land_spec. rewrite (testbit_small m s i Hm L).
    rewrite andb_false_r, !orb_false_l. f_equal. rewrite <- Z.shiftr_div_pow2 by exact Hs.
    rewrite Z.shiftr_spec by lia. f_equal. lia.
Qed.

Lemma glue_inj : forall p a b x y, 0 <= a < p -> 0 <= b < p -> a + p * x = b + p * y -> a = b /\ x = y.
Proof.
  intros p a b x y Ha Hb E. assert (X : x = y).
  { assert (Q1 : (a + p * x) / p = x) by (rewrite Z.mul_comm, Z.div_add by lia; rewrite Z.div_small by lia; lia).
    assert (Q2 : (b + p * y) / p = y) by (rewrite Z.mul_comm, Z.div_add by lia; rewrite Z.div_small by lia; lia).
    congruence. }
  split; [subst; lia | exact X].
Qed.

(** The word agrees with the fixed bits of one item. *)
Definition item_agrees (f : fitem) (x : Z) : Prop :=
  match f with FBit b => x = b | FField _ _ => True | FConst _ v => x = bv v end.

Lemma check_head : forall f l w, item_ok f -> Forall item_ok l ->
  (Z.land w (le_mask (f :: l)) = le_match (f :: l) <->
   item_agrees f (w mod 2 ^ item_size f) /\ Z.land (w / 2 ^ item_size f) (le_mask l) = le_match l).
Proof.
  intros f l w Hf H'. pose proof (size_nonneg f Hf) as Hs. pose proof (pow2_pos _ Hs) as Hp.
  cbn [le_mask le_match].
  rewrite land_glue; [|exact Hs | apply item_mask_bound; exact Hf | apply le_mask_bound; exact H'].
  pose proof (item_match_bound f Hf) as Bm. pose proof (item_mask_bound f Hf) as Bk.
  pose proof (Z.mod_pos_bound w (2 ^ item_size f) Hp) as Bw.
  set (p := 2 ^ item_size f) in *. set (x := w mod p) in *.
  assert (P1 : (Z.land x match f with FBit _ => 1 | FField _ _ => 0 | FConst _ v => bm v end =
               match f with FBit b => b | FField _ _ => 0 | FConst _ v => bv v end) <-> item_agrees f x).
  { unfold item_agrees. destruct f as [b|n s|n v]; cbn [item_ok item_size] in *.
    - change 1 with (2 ^ 1 - 1). rewrite land_mask by lia. subst p. rewrite Z.mod_small by exact Bw. reflexivity.
    - rewrite Z.land_0_r. tauto.
    - destruct Hf as [F1 [F2 F3]]. rewrite F3, land_mask by exact F1. subst p. rewrite Z.mod_small by exact Bw. reflexivity. }
  assert (B : 0 <= Z.land x match f with FBit _ => 1 | FField _ _ => 0 | FConst _ v => bm v end < p).
  { destruct f as [b|n s|n v]; cbn [item_ok item_size] in *.
    - change 1 with (2 ^ 1 - 1). rewrite land_mask by lia. subst p. rewrite Z.mod_small by exact Bw. exact Bw.
    - rewrite Z.land_0_r. lia.
    - destruct Hf as [F1 [F2 F3]]. rewrite F3, land_mask by exact F1. subst p. rewrite Z.mod_small by exact Bw. exact Bw. }
  split.
  - intro E. apply glue_inj in E; [|exact B | exact Bm]. destruct E as [E1 E2].
    split; [apply P1; exact E1 | exact E2].
  - intros [E1 E2]. apply P1 in E1. rewrite E1, E2. reflexivity.
Qed.

Lemma glue_div : forall p x y, 0 <= x < p -> (x + p * y) / p = y /\ (x + p * y) mod p = x.
Proof.
  intros p x y Hx. split.
  - rewrite Z.mul_comm, Z.div_add by lia. rewrite Z.div_small by exact Hx. lia.
  - rewrite Z.mul_comm, Z.mod_add by lia. apply Z.mod_small. exact Hx.
Qed.

Lemma encode_checks : forall vals l, Forall item_ok l -> Z.land (le_encode vals l) (le_mask l) = le_match l.
Proof.
  intros vals l H. induction H as [|f l Hf H IH]; [apply Z.land_0_r|].
  apply check_head; [exact Hf | exact H|]. cbn [le_encode].
  destruct (glue_div (2 ^ item_size f) (item_value vals f) (le_encode vals l) (item_value_bound vals f Hf)) as [E1 E2].
  rewrite E1, E2. split; [|exact IH]. destruct f; cbn [item_agrees item_value]; [reflexivity | exact I | reflexivity].
Qed.

Lemma le_encode_ext : forall v1 v2 l, (forall n, In n (names l) -> v1 n = v2 n) -> le_encode v1 l = le_encode v2 l.
Proof.
  intros v1 v2. induction l as [|f l IH]; intro E; [reflexivity|]. cbn [le_encode].
  rewrite IH by (intros n Hn; apply E; cbn [names flat_map]; apply in_or_app; right; exact Hn).
  f_equal. destruct f as [b|n s|n v]; cbn [item_value]; [reflexivity| |reflexivity].
  rewrite E; [reflexivity | left; reflexivity].
Qed.

Lemma check_encodes : forall l w, Forall item_ok l -> NoDup (names l) -> 0 <= w < 2 ^ total_size l ->
  Z.land w (le_mask l) = le_match l -> exists vals, w = le_encode vals l.
Proof.
  induction l as [|f l IH]; intros w H Hn Hw E.
  - exists (fun _ => 0). change (total_size []) with 0 in Hw. cbn [le_encode]. change (2 ^ 0) with 1 in Hw. lia.
  - inversion H as [|? ? Hf H']; subst. pose proof (size_nonneg f Hf) as Hs. pose proof (pow2_pos _ Hs) as Hp.
    apply check_head in E; [|exact Hf | exact H']. destruct E as [E1 E2].
    rewrite total_cons, pow2_add in Hw by (assumption || apply total_nonneg; exact H').
    assert (Hw' : 0 <= w / 2 ^ item_size f < 2 ^ total_size l).
    { split; [apply Z.div_pos; lia | apply Z.div_lt_upper_bound; lia]. }
    pose proof (Z.div_mod w (2 ^ item_size f)) as D.
    destruct f as [b|n s|n v]; cbn [item_size item_agrees item_ok] in *.
    + destruct (IH _ H' Hn Hw' E2) as [vals Ev]. exists vals. cbn [le_encode item_value item_size]. lia.
    + inversion Hn as [|? ? Hn1 Hn2]; subst.
      destruct (IH _ H' Hn2 Hw' E2) as [vals Ev].
      exists (fun x => if String.eqb x n then w mod 2 ^ s else vals x). cbn [le_encode item_value item_size].
      rewrite String.eqb_refl, Z.mod_mod by lia.
      rewrite (le_encode_ext _ vals l).
      * lia.
      * intros m Hm. destruct (String.eqb_spec m n); [subst; contradiction | reflexivity].
    + inversion Hn as [|? ? Hn1 Hn2]; subst.
      destruct (IH _ H' Hn2 Hw' E2) as [vals Ev]. exists vals. cbn [le_encode item_value item_size]. lia.
Qed.

Definition read_field (word : Z) (f : string * (Z * Z)) : res (string * bs) :=
  let '(n, (i, size)) := f in
  let* x := py_shr word i in let* b := bs_init (VInt x) (Some size) in Ok (n, b).

Lemma read_encoded : forall vals l w i, Forall item_ok l -> 0 <= i -> Z.shiftr w i = le_encode vals l ->
  map_res (read_field w) (le_fields i l) = Ok (flat_map (item_field vals) l).
Proof.
  intros vals. induction l as [|f l IH]; intros w i H Hi Ew; [reflexivity|].
  inversion H as [|? ? Hf H']; subst. pose proof (size_nonneg f Hf) as Hs.
  assert (Et : Z.shiftr w (i + item_size f) = le_encode vals l).
  { rewrite <- Z.shiftr_shiftr by exact Hs. rewrite Ew. cbn [le_encode]. rewrite Z.shiftr_div_pow2 by exact Hs.
    apply glue_div. apply item_value_bound. exact Hf. }
  assert (R := IH w (i + item_size f) H' ltac:(lia) Et).
  pose proof (item_value_bound vals f Hf) as Bv.
  assert (V : bits (item_size f) (Z.shiftr w i) = bits (item_size f) (item_value vals f)).
  { rewrite Ew. cbn [le_encode]. unfold bits. rewrite (proj2 (glue_div _ _ _ Bv)), Z.mod_small by exact Bv. reflexivity. }
  destruct f as [b|n s|n v]; cbn [le_fields flat_map item_field app item_size item_value item_ok] in *.
  - exact R.
  - cbn [map_res read_field]. unfold py_shr. replace (i <? 0) with false by lia. cbn [bind].
    rewrite init_int by exact Hs. cbn [bind]. rewrite R. cbn [bind]. rewrite V, bits_mod_eq by exact Hs. reflexivity.
  - cbn [map_res read_field]. unfold py_shr. replace (i <? 0) with false by lia. cbn [bind].
    rewrite init_int by exact Hs. cbn [bind]. rewrite R. cbn [bind]. rewrite V, <- wf_eq_bits by exact Hf. reflexivity.
Qed.

(** ** Two halves *)
Lemma le_mask_app : forall a b, Forall item_ok a -> le_mask (a ++ b) = le_mask a + 2 ^ total_size a * le_mask b.
Proof.
  intros a b H. induction H as [|f a Hf H IH]; [change (total_size []) with 0; cbn [app le_mask]; lia|].
  cbn [app le_mask]. rewrite IH, total_cons, pow2_add by (apply size_nonneg; exact Hf) || (apply total_nonneg; exact H). ring.
Qed.
Lemma le_match_app : forall a b, Forall item_ok a -> le_match (a ++ b) = le_match a + 2 ^ total_size a * le_match b.
Proof.
  intros a b H. induction H as [|f a Hf H IH]; [change (total_size []) with 0; cbn [app le_match]; lia|].
  cbn [app le_match]. rewrite IH, total_cons, pow2_add by (apply size_nonneg; exact Hf) || (apply total_nonneg; exact H). ring.
Qed.
Lemma le_encode_app : forall vals a b, Forall item_ok a ->
  le_encode vals (a ++ b) = le_encode vals a + 2 ^ total_size a * le_encode vals b.
Proof.
  intros vals a b H. induction H as [|f a Hf H IH]; [change (total_size []) with 0; cbn [app le_encode]; lia|].
  cbn [app le_encode]. rewrite IH, total_cons, pow2_add by (apply size_nonneg; exact Hf) || (apply total_nonneg; exact H). ring.
Qed.
Lemma le_fields_app : forall a b i, le_fields i (a ++ b) = le_fields i a ++ le_fields (i + total_size a) b.
Proof.
  induction a as [|f a IH]; intros b i; [change (total_size []) with 0; rewrite Z.add_0_r; reflexivity|].
  cbn [app le_fields]. rewrite IH, total_cons, app_assoc, Z.add_assoc. reflexivity.
Qed.
Lemma names_app : forall a b, names (a ++ b) = names a ++ names b.
Proof. intros. unfold names. apply flat_map_app. Qed.
Lemma names_rev : forall l, Permutation (names (rev l)) (names l).
Proof.
  induction l as [|f l IH]; [reflexivity|]. cbn [rev]. rewrite names_app. cbn [names flat_map] in *.
  rewrite app_nil_r. rewrite Permutation_app_comm. apply Permutation_app_head. exact IH.
Qed.
Lemma le_fields_names : forall l i, map fst (le_fields i l) = names l.
Proof.
  induction l as [|f l IH]; intro i; [reflexivity|]. cbn [le_fields names flat_map]. rewrite map_app, IH.
  destruct f; reflexivity.
Qed.
Lemma update_new : forall (d2 d1 : fields), NoDup (map fst d1 ++ map fst d2) ->
  fold_left (fun d kv => dict_set String.eqb (fst kv) (snd kv) d) d2 d1 = d1 ++ d2.
Proof.
  induction d2 as [|[k v] d2 IH]; intros d1 H; [rewrite app_nil_r; reflexivity|]. cbn [fold_left fst snd map] in *.
  rewrite dict_set_new.
  - rewrite IH.
    + rewrite <- app_assoc. reflexivity.
    + rewrite map_app, <- app_assoc. exact H.
  - apply NoDup_remove_2 in H. intro C. apply H, in_or_app. left. exact C.
Qed.

Lemma nodup_l : forall (A : Type) (a b : list A), NoDup (a ++ b) -> NoDup a.
Proof.
  induction a as [|x a IH]; intros b H; [apply NoDup_nil|]. inversion H as [|? ? H1 H2]; subst.
  apply NoDup_cons; [intro C; apply H1, in_or_app; left; exact C | exact (IH _ H2)].
Qed.
Lemma nodup_r : forall (A : Type) (a b : list A), NoDup (a ++ b) -> NoDup b.
Proof. induction a as [|x a IH]; intros b H; [exact H|]. inversion H; subst. exact (IH _ H3). Qed.

(** What the constructor computes. *)
Section Make.
  Context {H : Type}.
  Implicit Types (h : H) (d : decoder H).

  Lemma make16 : forall h mn k s kw fmt, parse_spec s = Ok fmt -> NoDup (names fmt) -> total_size fmt = 16 ->
    make_decoder h mn k s None kw = Ok (mkdec h mn k kw (le_mask (rev fmt)) (le_match (rev fmt)) (le_fields 0 (rev fmt)) false).
  Proof.
    intros h mn k s kw fmt E Hn Ht. unfold make_decoder. rewrite E. cbn [bind].
    rewrite process_ok.
    - cbn [bind]. rewrite !Z.shiftl_0_r. reflexivity.
    - apply Forall_rev. exact (parse_items_ok _ _ E).
    - lia.
    - apply (Permutation_NoDup (Permutation_sym (names_rev fmt))). exact Hn.
    - rewrite total_rev. exact Ht.
  Qed.

  Lemma make32 : forall h mn k s s2 kw fmt fmt2, parse_spec s = Ok fmt -> parse_spec s2 = Ok fmt2 ->
    NoDup (names fmt ++ names fmt2) -> total_size fmt = 16 -> total_size fmt2 = 16 ->
    make_decoder h mn k s (Some s2) kw =
    Ok (mkdec h mn k kw (le_mask (rev fmt ++ rev fmt2)) (le_match (rev fmt ++ rev fmt2))
          (le_fields 0 (rev fmt ++ rev fmt2)) true).
  Proof.
    intros h mn k s s2 kw fmt fmt2 E E2 Hn Ht Ht2. unfold make_decoder. rewrite E. cbn [bind].
    pose proof (parse_items_ok _ _ E) as O. pose proof (parse_items_ok _ _ E2) as O2.
    apply Forall_rev in O, O2.
    assert (N1 : NoDup (names (rev fmt) ++ names (rev fmt2))).
    { apply (Permutation_NoDup (l := names fmt ++ names fmt2)); [|exact Hn].
      apply Permutation_app; apply Permutation_sym, names_rev. }
    rewrite process_ok; [|exact O | lia | exact (nodup_l _ _ _ N1) | rewrite total_rev; exact Ht].
    cbn [bind]. rewrite E2. cbn [bind].
    rewrite process_ok; [|exact O2 | lia | exact (nodup_r _ _ _ N1) | rewrite total_rev; exact Ht2].
    cbn [bind]. rewrite !Z.shiftl_0_r, update_new by (rewrite !le_fields_names; exact N1).
    rewrite le_mask_app, le_match_app, le_fields_app by exact O. rewrite total_rev, Ht.
    pose proof (le_mask_bound _ O) as B1. pose proof (le_match_bound _ O) as B2. rewrite total_rev, Ht in B1, B2.
    rewrite !(lor_byte _ _ 16) by (lia || assumption). reflexivity.
  Qed.

  Lemma make_inv : forall h mn k s s2 kw d, make_decoder h mn k s s2 kw = Ok d ->
    exists L, Forall item_ok L /\ (total_size L = 16 \/ total_size L = 32) /\ d_mask d = le_mask L /\ d_match d = le_match L /\
      d_handler d = h /\ d_is32 d = match s2 with Some _ => true | None => false end.
  Proof.
    intros h mn k s s2 kw d E. unfold make_decoder in E.
    destruct (parse_spec s) as [fmt|e] eqn:Ep; [|discriminate]. cbn [bind] in E.
    pose proof (parse_items_ok _ _ Ep) as O. apply Forall_rev in O.
    destruct (process_fmt (rev fmt) 0) as [[[mask mtch] at1]|e] eqn:Ef; [|discriminate]. cbn [bind] in E.
    apply process_masks in Ef; [|exact O | lia]. destruct Ef as [Ht [-> ->]]. rewrite !Z.shiftl_0_r in E.
    destruct s2 as [s2|].
    - destruct (parse_spec s2) as [fmt2|e] eqn:Ep2; [|discriminate]. cbn [bind] in E.
      pose proof (parse_items_ok _ _ Ep2) as O2. apply Forall_rev in O2.
      destruct (process_fmt (rev fmt2) 16) as [[[mask mtch] at2]|e] eqn:Ef2; [|discriminate]. cbn [bind] in E.
      apply process_masks in Ef2; [|exact O2 | lia]. destruct Ef2 as [Ht2 [-> ->]].
      pose proof (le_mask_bound _ O) as B1. pose proof (le_match_bound _ O) as B2. rewrite Ht in B1, B2.
      rewrite !(lor_byte _ _ 16) in E by (lia || assumption). apply (f_equal (fun r => match r with Ok x => x | Err _ => d end)) in E.
      cbv beta iota in E. subst d.
      exists (rev fmt ++ rev fmt2). cbn [d_mask d_match d_handler d_is32]. rewrite le_mask_app, le_match_app, total_app, Ht, Ht2 by exact O.
      repeat split; try reflexivity; [apply Forall_app; split; assumption | right; reflexivity].
    - injection E as <-. exists (rev fmt). cbn [d_mask d_match d_handler d_is32]. repeat split; try reflexivity; [exact O | left; exact Ht].
  Qed.

  Lemma make_bad : forall h mn k s s2 kw fmt, parse_spec s = Ok fmt -> total_size fmt <> 16 ->
    make_decoder h mn k s s2 kw = Err AssertionError.
  Proof.
    intros h mn k s s2 kw fmt E Ht. unfold make_decoder. rewrite E. cbn [bind].
    rewrite process_bad; [reflexivity | apply Forall_rev; exact (parse_items_ok _ _ E) | lia | rewrite total_rev; exact Ht].
  Qed.
  Lemma make_bad2 : forall h mn k s s2 kw fmt fmt2, parse_spec s = Ok fmt -> parse_spec s2 = Ok fmt2 ->
    total_size fmt2 <> 16 -> make_decoder h mn k s (Some s2) kw = Err AssertionError.
  Proof.
    intros h mn k s s2 kw fmt fmt2 E E2 Ht. unfold make_decoder. rewrite E. cbn [bind].
    destruct (Z.eq_dec (total_size fmt) 16) as [Ht1|Ht1].
    - destruct (process_fmt (rev fmt) 0) as [[[mask mtch] at1]|e] eqn:Ef.
      + cbn [bind]. rewrite E2. cbn [bind].
        rewrite process_bad; [reflexivity | apply Forall_rev; exact (parse_items_ok _ _ E2) | lia | rewrite total_rev; exact Ht].
      + unfold process_fmt in Ef. destruct (fold_left (fmt_step 0) (rev fmt) (0, 0, 0, [])) as [[[i a] b] c].
        destruct (i =? 16); [discriminate|]. injection Ef as <-. reflexivity.
    - rewrite process_bad; [reflexivity | apply Forall_rev; exact (parse_items_ok _ _ E) | lia | rewrite total_rev; exact Ht1].
  Qed.
End Make.
