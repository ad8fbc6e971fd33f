(** * Facts about the simulator model *)
From Verif Require Import SimModel SpecBits BitFacts BitText UtilFacts SpecCpu CpuFacts CpuThms SpecWhole SpecDecoder SpecDisasm SpecFormat DisasmThms FormatFacts FormatThms UtilThms ExecFacts ExecWholeThms SpecExec SpecIsa SpecSim.
From Coq Require Import Lia.
Local Open Scope string_scope.
Local Open Scope list_scope.
Local Open Scope Z_scope.
Local Open Scope bool_scope.

(** ** Hexadecimal *)
Lemma hexn_length : forall w z, String.length (hexn w z) = w.
Proof.
  induction w as [|w IH]; intros z; [reflexivity|]. cbn [hexn].
  assert (L : forall a b, String.length (a +++ b) = (String.length a + String.length b)%nat)
    by (induction a as [|x a IHa]; intros b; cbn; [reflexivity|now rewrite IHa]).
  rewrite L, IH. assert (B : 0 <= z mod 16 < 16) by (apply Z.mod_pos_bound; lia).
  assert (E : String.length (hex_digit (z mod 16)) = 1%nat).
  { unfold hex_digit. assert (M : z mod 16 = 0 \/ z mod 16 = 1 \/ z mod 16 = 2 \/ z mod 16 = 3 \/ z mod 16 = 4 \/ z mod 16 = 5 \/ z mod 16 = 6 \/ z mod 16 = 7 \/
      z mod 16 = 8 \/ z mod 16 = 9 \/ z mod 16 = 10 \/ z mod 16 = 11 \/ z mod 16 = 12 \/ z mod 16 = 13 \/ z mod 16 = 14 \/ z mod 16 = 15) by lia.
    repeat (destruct M as [M|M]; [rewrite M; reflexivity|]). rewrite M. reflexivity. }
  rewrite E. lia.
Qed.

Lemma digit_of_hex : forall d, 0 <= d < 16 -> exists c, hex_digit d = String c "" /\ char_digit c = d.
Proof.
  intros d H. assert (M : d = 0 \/ d = 1 \/ d = 2 \/ d = 3 \/ d = 4 \/ d = 5 \/ d = 6 \/ d = 7 \/
      d = 8 \/ d = 9 \/ d = 10 \/ d = 11 \/ d = 12 \/ d = 13 \/ d = 14 \/ d = 15) by lia.
  repeat (destruct M as [M|M]; [subst d; eexists; split; reflexivity|]). subst d; eexists; split; reflexivity.
Qed.

Lemma chars_app : forall a b, chars (a +++ b) = chars a ++ chars b.
Proof. induction a as [|c a IH]; intros b; cbn; [reflexivity|now rewrite IH]. Qed.

Lemma number_snoc : forall b l d acc, number b (l ++ [d]) acc = number b l acc * b + d.
Proof. induction l as [|x l IH]; intros d acc; cbn [number app]; [reflexivity|apply IH]. Qed.

Lemma hexn_denotes : forall w z, 0 <= z < 16 ^ Z.of_nat w -> denotes 16 (hexn w z) z.
Proof.
  induction w as [|w IH]; intros z H.
  - cbn in H. assert (z = 0) by lia. subst. split; [constructor|reflexivity].
  - cbn [hexn]. assert (B : 0 <= z mod 16 < 16) by (apply Z.mod_pos_bound; lia).
    destruct (digit_of_hex (z mod 16) B) as [c [E D]]. rewrite E.
    rewrite Nat2Z.inj_succ, Z.pow_succ_r in H by lia.
    destruct (IH (z / 16)) as [F N]. { split; [apply Z.div_pos; lia|apply Z.div_lt_upper_bound; lia]. }
    split.
    + rewrite chars_app. apply Forall_app. split; [exact F|]. constructor; [|constructor]. unfold is_base_digit. lia.
    + rewrite chars_app, map_app. unfold be_number in *. cbn [chars map]. rewrite number_snoc, N, D.
      pose proof (Z.div_mod z 16). lia.
Qed.

Lemma char_digit_inj : forall a b, is_base_digit 16 a -> is_base_digit 16 b -> char_digit a = char_digit b -> a = b.
Proof.
  intros a b A B E. rewrite <- (ascii_nat_embedding a), <- (ascii_nat_embedding b). f_equal.
  unfold is_base_digit, char_digit in *.
  destruct (Z.of_nat (nat_of_ascii a) <? 58) eqn:A1; destruct (Z.of_nat (nat_of_ascii b) <? 58) eqn:B1;
    destruct (Z.of_nat (nat_of_ascii a) <? 97) eqn:A2; destruct (Z.of_nat (nat_of_ascii b) <? 97) eqn:B2; lia.
Qed.

Lemma number_bound : forall b l acc, 2 <= b -> Forall (fun d => 0 <= d < b) l -> 
  acc * b ^ Z.of_nat (List.length l) <= number b l acc < (acc + 1) * b ^ Z.of_nat (List.length l).
Proof.
  induction l as [|d l IH]; intros acc Hb F; cbn [number List.length].
  - rewrite Z.pow_0_r. lia.
  - inversion F as [|? ? D F']; subst. specialize (IH (acc * b + d) Hb F'). rewrite Nat2Z.inj_succ, Z.pow_succ_r by lia.
    set (p := b ^ Z.of_nat (List.length l)) in *. assert (0 < p) by (apply Z.pow_pos_nonneg; lia).
    clearbody p. nia.
Qed.

Lemma number_inj : forall b l l' acc acc', 2 <= b -> Forall (fun d => 0 <= d < b) l -> Forall (fun d => 0 <= d < b) l' ->
  List.length l = List.length l' -> number b l acc = number b l' acc' -> l = l' /\ acc = acc'.
Proof.
  induction l as [|d l IH]; intros [|d' l'] acc acc' Hb F F' L E; try discriminate L; cbn in E.
  - now split.
  - inversion F as [|? ? D G]; subst. inversion F' as [|? ? D' G']; subst. injection L as L.
    destruct (IH l' _ _ Hb G G' L E) as [-> M]. destruct (Z.div_mod_unique b acc acc' d d') as [-> ->]; [lia|lia|lia|]. now split.
Qed.

Lemma denotes_inj : forall s t z, denotes 16 s z -> denotes 16 t z -> String.length s = String.length t -> s = t.
Proof.
  intros s t z [F N] [F' N'] L.
  assert (LC : forall u, List.length (chars u) = String.length u) by (induction u as [|c u IHu]; cbn; [reflexivity|now rewrite IHu]).
  assert (C : map char_digit (chars s) = map char_digit (chars t)).
  { unfold be_number in *. destruct (number_inj 16 (map char_digit (chars s)) (map char_digit (chars t)) 0 0) as [E _]; [lia|..|exact E].
    - apply Forall_map. exact F. - apply Forall_map. exact F'. - rewrite !map_length, !LC. exact L. - congruence. }
  assert (K : chars s = chars t).
  { revert F F' C. generalize (chars s) (chars t). induction l as [|a l IH]; intros [|b l'] F F' C; try discriminate C; [reflexivity|].
    cbn in C. injection C as C1 C2. inversion F; subst. inversion F'; subst. f_equal; [now apply char_digit_inj|now apply IH]. }
  clear -K. revert t K. induction s as [|a s IH]; intros [|b t] K; try discriminate K; [reflexivity|].
  cbn in K. injection K as -> K. f_equal. now apply IH.
Qed.

Lemma all_ascii : forall p : ascii -> bool, forallb p (map ascii_of_nat (seq 0 256)) = true -> forall c, p c = true.
Proof.
  intros p H c. rewrite forallb_forall in H. apply H. apply in_map_iff. exists (nat_of_ascii c). split; [apply ascii_nat_embedding|].
  apply in_seq. pose proof (nat_ascii_bounded c). lia.
Qed.
Lemma dec_text_unique : forall s t z, dec_text s z -> dec_text t z -> s = t.
Proof.
  assert (LC : forall u, List.length (chars u) = String.length u) by (induction u as [|c u IHu]; cbn; [reflexivity|now rewrite IHu]).
  assert (SZ : forall c t n, canonical 10 (String c t) n -> n <> 0 -> 
    10 ^ Z.of_nat (String.length t) <= n < 10 ^ Z.of_nat (S (String.length t))).
  { intros c t n [[F N] [_ C]] NZ. destruct (C NZ) as [c' [t' [E NC]]]. injection E as <- <-. cbn [chars map] in *. inversion F as [|? ? D F']; subst.
    unfold be_number in *. cbn [number]. change (0 * 10 + char_digit c) with (char_digit c).
    pose proof (number_bound 10 (map char_digit (chars t)) (char_digit c) ltac:(lia)) as B.
    rewrite map_length, LC in B. specialize (B ltac:(apply Forall_map; exact F')).
    unfold is_base_digit in D. assert (1 <= char_digit c).
    { pose proof (all_ascii (fun c => negb (char_digit c =? 0) || Ascii.eqb c "0") ltac:(vm_compute; reflexivity) c) as A. cbn beta in A.
      destruct (Ascii.eqb_spec c "0"); [congruence|]. destruct (Z.eqb_spec (char_digit c) 0); [discriminate A|lia]. }
    set (p := 10 ^ Z.of_nat (String.length t)) in *. rewrite Nat2Z.inj_succ, Z.pow_succ_r by lia. fold p.
    assert (0 < p) by (apply Z.pow_pos_nonneg; lia). split; nia. }
  assert (U : forall s t n, canonical 10 s n -> canonical 10 t n -> s = t).
  { intros s t n HS HT. destruct (Z.eq_dec n 0) as [->|NZ].
    - destruct HS as [_ [HS _]], HT as [_ [HT _]]. now rewrite (HS eq_refl), (HT eq_refl).
    - pose proof HS as [[FS NS] [_ CS]]. pose proof HT as [[FT NT] [_ CT]].
      destruct (CS NZ) as [c [s' [-> _]]]. destruct (CT NZ) as [d [t' [-> _]]].
      pose proof (SZ _ _ _ HS NZ) as B1. pose proof (SZ _ _ _ HT NZ) as B2.
      assert (L : String.length s' = String.length t').
      { destruct (Nat.lt_trichotomy (String.length s') (String.length t')) as [X|[X|X]]; [|exact X|]; exfalso.
        - pose proof (Z.pow_le_mono_r 10 (Z.of_nat (S (String.length s'))) (Z.of_nat (String.length t')) ltac:(lia) ltac:(lia)). lia.
        - pose proof (Z.pow_le_mono_r 10 (Z.of_nat (S (String.length t'))) (Z.of_nat (String.length s')) ltac:(lia) ltac:(lia)). lia. }
      assert (E : map char_digit (chars (String c s')) = map char_digit (chars (String d t'))).
      { unfold be_number in *. destruct (number_inj 10 (map char_digit (chars (String c s'))) (map char_digit (chars (String d t'))) 0 0) as [E _]; [lia|..|exact E].
        - apply Forall_map. exact FS. - apply Forall_map. exact FT. - rewrite !map_length, !LC. cbn. now rewrite L. - congruence. }
      assert (M : forall u v, Forall (is_base_digit 10) (chars u) -> Forall (is_base_digit 10) (chars v) -> map char_digit (chars u) = map char_digit (chars v) -> u = v).
      { clear. induction u as [|a u IH]; intros [|b v] F G E; try discriminate E; [reflexivity|]. cbn in E, F, G. inversion F; subst. inversion G; subst. injection E as E1 E2.
        f_equal; [|now apply IH]. apply char_digit_inj; [unfold is_base_digit in *; lia..|exact E1]. }
      now apply M. }
  intros s t z S T. unfold dec_text in *. destruct (z <? 0).
  - destruct S as [s' [-> S]], T as [t' [-> T]]. now rewrite (U _ _ _ S T).
  - now apply (U _ _ z).
Qed.

Lemma fmt_hexn : forall w z, 1 <= w -> 0 <= z < 16 ^ w -> fmt_0x w z = hexn (Z.to_nat w) z.
Proof.
  intros w z Hw H. eapply denotes_inj.
  - apply fmt_0x_denotes. lia.
  - apply hexn_denotes. rewrite Z2Nat.id by lia. exact H.
  - rewrite hexn_length. pose proof (fmt_0x_length w z Hw H) as L. unfold strlen in L. lia.
Qed.

(** ** Printing *)
Definition say (l : list string) (s : sim) : sim := mksim (sim_cpu s) (sim_tree s) (sim_out s ++ map Txt l) false.
Lemma glue_app : forall a b, glue (a ++ b) = glue a +++ glue b.
Proof.
  induction a as [|x a IH]; intros b; cbn; [reflexivity|]. rewrite IH.
  clear. induction x as [|c x IHx]; cbn; [reflexivity|now rewrite IHx].
Qed.
Lemma app_assoc_s : forall a b c, (a +++ b) +++ c = a +++ b +++ c.
Proof. induction a as [|x a IH]; intros b c; cbn; [reflexivity|now rewrite IH]. Qed.
Lemma app_nil_s : forall a, a +++ "" = a.
Proof. induction a as [|x a IH]; cbn; [reflexivity|now rewrite IH]. Qed.

Lemma print_say : forall t s, sim_soft s = false -> print t s = (say [t; newline] s, Done tt).
Proof.
  intros t [c tr o so] H. cbn in H. subst so. unfold print, print_comma, print_item, print_end, sbind, say. cbn.
  rewrite <- app_assoc. reflexivity.
Qed.
Lemma say_printed : forall l s, printed s (glue l) (say l s).
Proof. intros l s. repeat split. exists l. split; reflexivity. Qed.
Lemma say_say : forall a b s, say b (say a s) = say (a ++ b) s.
Proof. intros a b s. unfold say. cbn. now rewrite map_app, app_assoc. Qed.
Lemma say_nil : forall s, sim_soft s = false -> say [] s = s.
Proof. intros [c t o so] H. cbn in H. subst so. unfold say. cbn. now rewrite app_nil_r. Qed.
Lemma printed_line : forall t s, printed s (the_line t) (say [t; newline] s).
Proof. intros t s. pose proof (say_printed [t; newline] s) as P. cbn in P. exact P. Qed.
Lemma printed_trans : forall s a s1 b s2, printed s a s1 -> printed s1 b s2 -> printed s (a +++ b) s2.
Proof.
  intros s a s1 b s2 [C [T [S [l [O G]]]]] [C' [T' [S' [l' [O' G']]]]].
  repeat split; try congruence. exists (l ++ l'). split; [|now rewrite glue_app, G, G'].
  now rewrite O', O, map_app, app_assoc.
Qed.

(** ** Dump *)
Lemma print_comma_say : forall t s, print_comma t s =
  (mksim (sim_cpu s) (sim_tree s) (sim_out s ++ map Txt ((if sim_soft s then [" "] else []) ++ [t])) (soft_after (Txt t)), Done tt).
Proof. intros t s. unfold print_comma, print_item. destruct (sim_soft s); reflexivity. Qed.

Lemma last_char_app : forall a c b, last_char (a +++ String c b) = last_char (String c b).
Proof. induction a as [|x a IH]; intros c b; [reflexivity|]. cbn [String.append]. rewrite <- (IH c b). destruct a; reflexivity. Qed.

Lemma hexn_soft : forall w z, 0 <= z -> soft_after (Txt (hexn w z)) = true.
Proof.
  intros [|w] z H; [reflexivity|]. cbn [hexn soft_after].
  destruct (digit_of_hex (z mod 16)) as [c [E D]]; [apply Z.mod_pos_bound; lia|]. rewrite E, last_char_app. cbn [last_char].
  assert (B : 0 <= z mod 16 < 16) by (apply Z.mod_pos_bound; lia). rewrite <- D in B. clear D E.
  unfold char_digit in B. unfold is_ws, str_ws. cbn [existsb].
  assert (N : forall x, Z.of_nat (nat_of_ascii x) < 48 -> Ascii.eqb c x = false).
  { intros x L. apply Ascii.eqb_neq. intros ->. destruct (Z.of_nat (nat_of_ascii x) <? 58) eqn:Q; lia. }
  rewrite !N by reflexivity. reflexivity.
Qed.

Definition unit_range (w : Z) (v : Z) : Prop := 0 <= v < 2 ^ w.

Lemma soft_header : forall t, soft_after (Txt (t +++ ": ")) = true.
Proof. intros t. cbn [soft_after]. rewrite last_char_app. reflexivity. Qed.

Lemma dump_items_ok : forall l w start i first s, width_ok w -> 0 <= i -> 
  first = (i mod (128 / w) =? 0) -> sim_soft s = negb first -> Forall (unit_range w) l ->
  0 <= start -> start + i + Z.of_nat (List.length l) <= 2 ^ 32 ->
  exists ps, dump_items w start i first l s = (mksim (sim_cpu s) (sim_tree s) (sim_out s ++ map Txt ps) false, Done tt) /\
    glue ps = match l with [] => if first then "" else newline | _ => dump_from w 1 start i l end.
Proof.
  induction l as [|d l IH]; intros w start i first s W Hi F S RG Hs Hb.
  - cbn [dump_items]. destruct first.
    + exists []. split; [|reflexivity]. unfold sret. cbn in S. destruct s as [c t o so]; cbn in *. subst so. now rewrite app_nil_r.
    + exists [newline]. split; reflexivity.
  - inversion RG as [|? ? R0 RG']; subst x l0. cbn [List.length] in Hb. cbn [dump_items].
    set (per := 128 / w) in *.
    assert (Eper : (if w =? 8 then 16 else if w =? 16 then 8 else 4) = per) by (unfold per; destruct W as [->|[->| ->]]; reflexivity).
    rewrite Eper.
    (* the header *)
    set (hd := if first then [hexn 8 (start + i) +++ ": "] else []).
    assert (H1 : exists s1, (if first then print_comma (fmt_0x 8 (start + i) ++ ": ")%string else sret tt) s = (s1, Done tt) /\
       s1 = mksim (sim_cpu s) (sim_tree s) (sim_out s ++ map Txt hd) true).
    { destruct first; eexists; (split; [|reflexivity]).
      - rewrite print_comma_say, S. cbn [negb]. rewrite fmt_hexn by (try lia; change (16 ^ 8) with (2 ^ 32); lia). rewrite soft_header. reflexivity.
      - unfold sret, hd. cbn [map]. rewrite app_nil_r. destruct s as [c t o so]. cbn in *. now subst so. }
    destruct H1 as [s1 [H1 E1]]. unfold sbind at 1. rewrite H1. clear H1.
    (* the item *)
    assert (NN : (1 <= Z.to_nat (w / 4))%nat /\ w / 4 = Z.of_nat (Z.to_nat (w / 4))) by (destruct W as [->|[->| ->]]; cbn; lia).
    set (it := [" "; hexn (Z.to_nat (w / 4)) d] ++ (if (w =? 8) && ((i + 1) mod 4 =? 0) then [" "; ""] else [])).
    assert (H2 : exists s2, (if w =? 8 then print_comma (fmt_0x 2 d) ;; if (i + 1) mod 4 =? 0 then print_comma "" else sret tt
        else if w =? 16 then print_comma (fmt_0x 4 d) else print_comma (fmt_0x 8 d)) s1 = (s2, Done tt) /\
       s2 = mksim (sim_cpu s) (sim_tree s) (sim_out s ++ map Txt (hd ++ it)) true).
    { assert (FX : forall k, w = 4 * k -> fmt_0x k d = hexn (Z.to_nat (w / 4)) d).
      { intros k K. assert (w / 4 = k) by (subst w; rewrite Z.mul_comm; apply Z.div_mul; lia). rewrite H. apply fmt_hexn; [destruct W; lia|].
        unfold unit_range in R0. rewrite K in R0. rewrite Z.pow_mul_r in R0 by (destruct W; lia). exact R0. }
      assert (PC : print_comma (hexn (Z.to_nat (w / 4)) d) s1 = (mksim (sim_cpu s) (sim_tree s) (sim_out s ++ map Txt (hd ++ [" "; hexn (Z.to_nat (w / 4)) d])) true, Done tt)).
      { rewrite print_comma_say, E1. cbn [sim_soft sim_cpu sim_tree sim_out]. rewrite hexn_soft by (unfold unit_range in R0; lia). rewrite !map_app, <- !app_assoc. reflexivity. }
      destruct W as [->|[->| ->]].
      - cbn [Z.eqb Pos.eqb andb] in *. rewrite (FX 2) by reflexivity. unfold sbind. rewrite PC.
        unfold it. cbn [Z.eqb Pos.eqb andb]. destruct ((i + 1) mod 4 =? 0).
        + eexists. split; [rewrite print_comma_say; reflexivity|]. cbn [sim_soft sim_cpu sim_tree sim_out]. rewrite <- app_assoc, <- map_app, <- app_assoc. reflexivity.
        + eexists. split; [reflexivity|]. rewrite app_nil_r. reflexivity.
      - cbn [Z.eqb Pos.eqb andb] in *. rewrite (FX 4) by reflexivity. rewrite PC. eexists. split; [reflexivity|]. unfold it. cbn [Z.eqb Pos.eqb andb]. rewrite app_nil_r. reflexivity.
      - cbn [Z.eqb Pos.eqb andb] in *. rewrite (FX 8) by reflexivity. rewrite PC. eexists. split; [reflexivity|]. unfold it. cbn [Z.eqb Pos.eqb andb]. rewrite app_nil_r. reflexivity. }
    destruct H2 as [s2 [H2 E2]]. unfold sbind at 1. rewrite H2. clear H2.
    assert (GH : glue hd = if i mod per =? 0 then hexn 8 (start + 1 * i) +++ ": " else "").
    { unfold hd. rewrite <- F, Z.mul_1_l. destruct first; cbn [glue]; [apply app_nil_s|reflexivity]. }
    assert (GI : glue it = " " +++ hexn (Z.to_nat (w / 4)) d +++ (if (w =? 8) && ((i + 1) mod 4 =? 0) then " " else "")).
    { unfold it. rewrite glue_app. cbn [glue]. rewrite app_nil_s, app_assoc_s. destruct ((w =? 8) && ((i + 1) mod 4 =? 0)); reflexivity. }
    cbn [dump_from]. fold per. rewrite <- GH.
    destruct ((i + 1) mod per =? 0) eqn:PE.
    + unfold sbind, print_end at 1. rewrite E2. cbn [sim_cpu sim_tree sim_out].
      destruct (IH w start (i + 1) true (mksim (sim_cpu s) (sim_tree s) ((sim_out s ++ map Txt (hd ++ it)) ++ [Txt newline]) false)) as [ps [E G]];
        try assumption; try lia; try reflexivity. { symmetry. exact PE. }
      rewrite E. cbn [sim_cpu sim_tree sim_out]. exists (hd ++ it ++ [newline] ++ ps). split.
      * do 2 f_equal. rewrite !map_app, <- !app_assoc. reflexivity.
      * rewrite !glue_app, G, GI. cbn [glue]. rewrite !app_assoc_s. do 4 f_equal. cbn [String.append]. destruct l; reflexivity.
    + rewrite E2. destruct (IH w start (i + 1) false (mksim (sim_cpu s) (sim_tree s) (sim_out s ++ map Txt (hd ++ it)) true)) as [ps [E G]];
        try assumption; try lia; try reflexivity. { symmetry. exact PE. }
      rewrite E. cbn [sim_cpu sim_tree sim_out]. exists (hd ++ it ++ ps). split.
      * do 2 f_equal. rewrite !map_app, <- !app_assoc. reflexivity.
      * rewrite !glue_app, G, GI. rewrite !app_assoc_s. do 4 f_equal. destruct l; reflexivity.
Qed.

(** ** Arguments *)
(** A character that is left alone by all the text processing. *)
Definition tame (c : ascii) : bool :=
  negb (is_ws c) && negb (Ascii.eqb c ",") && negb (Ascii.eqb c "_") && negb (Ascii.eqb c "[") && Ascii.eqb (lower_char c) c.

Lemma digit_tame : forall c, is_base_digit 16 c -> tame c = true.
Proof.
  intros c H. pose proof (all_ascii (fun c => negb ((0 <=? char_digit c) && (char_digit c <? 16)) || tame c) ltac:(vm_compute; reflexivity) c) as A.
  cbn beta in A. unfold is_base_digit in H. replace (0 <=? char_digit c) with true in A by lia. replace (char_digit c <? 16) with true in A by lia. exact A.
Qed.
Lemma digit_in_ok : forall b c, 2 <= b <= 16 -> is_base_digit b c -> digit_in b c = Some (char_digit c).
Proof.
  intros b c Hb H. unfold is_base_digit in H.
  pose proof (all_ascii (fun c => negb ((0 <=? char_digit c) && (char_digit c <? 16)) ||
    (let n := Z.of_nat (nat_of_ascii c) in ((48 <=? n) && (n <=? 57) && (char_digit c =? n - 48)) ||
      (negb ((48 <=? n) && (n <=? 57)) && ((97 <=? n) && (n <=? 122)) && (char_digit c =? n - 87)))) ltac:(vm_compute; reflexivity) c) as A.
  cbn beta in A. replace (0 <=? char_digit c) with true in A by lia. replace (char_digit c <? 16) with true in A by lia. cbn [andb negb orb] in A.
  unfold digit_in. cbv zeta in *.
  destruct ((48 <=? Z.of_nat (nat_of_ascii c)) && (Z.of_nat (nat_of_ascii c) <=? 57)) eqn:D.
  - cbn [andb negb orb] in A. rewrite orb_false_r in A. replace (Z.of_nat (nat_of_ascii c) - 48) with (char_digit c) by lia.
    replace (char_digit c <? b) with true by lia. reflexivity.
  - cbn [andb negb orb] in A. destruct ((97 <=? Z.of_nat (nat_of_ascii c)) && (Z.of_nat (nat_of_ascii c) <=? 122)); [|discriminate A].
    cbn [andb] in A. replace (Z.of_nat (nat_of_ascii c) - 87) with (char_digit c) by lia. replace (char_digit c <? b) with true by lia. reflexivity.
Qed.
Lemma digits_in_ok : forall b l acc, 2 <= b <= 16 -> Forall (is_base_digit b) l -> digits_in b acc l = Some (number b (map char_digit l) acc).
Proof.
  induction l as [|c l IH]; intros acc Hb F; [reflexivity|]. inversion F; subst. cbn [digits_in map number].
  rewrite digit_in_ok by assumption. now apply IH.
Qed.
Lemma number_in_ok : forall b t n, 2 <= b <= 16 -> t <> "" -> denotes b t n -> number_in b (chars t) = Some n.
Proof.
  intros b t n Hb N [F <-]. unfold number_in. destruct (chars t) as [|c l] eqn:E; [destruct t; [congruence|discriminate E]|].
  rewrite digits_in_ok by assumption. reflexivity.
Qed.
Lemma base_digit_mono : forall b l, b <= 16 -> Forall (is_base_digit b) l -> Forall (is_base_digit 16) l.
Proof. intros b l H F. eapply Forall_impl; [|exact F]. intros c. unfold is_base_digit. lia. Qed.

Definition tame_text (s : string) : Prop := Forall (fun c => tame c = true) (chars s).
Lemma denotes_tame : forall b t n, b <= 16 -> denotes b t n -> tame_text t.
Proof. intros b t n H [F _]. apply (base_digit_mono b) in F; [|exact H]. eapply Forall_impl; [|exact F]. intros c. apply digit_tame. Qed.

Lemma numeral_ok : forall t n, numeral t n -> int0_unsigned (chars t) = Some n /\ tame_text t /\ 
  exists c l, chars t = c :: l /\ is_base_digit 10 c.
Proof.
  intros t n H. assert (Z0 : is_base_digit 10 "0") by (split; vm_compute; [discriminate|reflexivity]).
  inversion H as [t' n' C|t' n' N D|t' n' N D|t' n' N D|t' n' N D]; subst.
  - destruct C as [D [C0 C1]]. split; [|split].
    + destruct (Z.eq_dec n 0) as [->|NZ]; [rewrite (C0 eq_refl); reflexivity|].
      destruct (C1 NZ) as [c [u [-> NC]]]. cbn [chars]. unfold int0_unsigned.
      assert (X : number_in 10 (chars (String c u)) = Some n) by (apply number_in_ok; [lia|discriminate|exact D]). cbn [chars] in X.
      destruct c as [[] [] [] [] [] [] [] []]; try exact X. exfalso. apply NC. reflexivity.
    + apply (denotes_tame 10 t n); [lia|exact D].
    + destruct D as [F _]. destruct (Z.eq_dec n 0) as [->|NZ].
      * rewrite (C0 eq_refl). eexists. eexists. split; [reflexivity|exact Z0].
      * destruct (C1 NZ) as [c [u [-> NC]]]. cbn [chars] in *. inversion F; subst. eexists. eexists. split; [reflexivity|assumption].
  - split; [exact (number_in_ok 16 t' n ltac:(lia) N D)|]. split; [repeat constructor; apply (denotes_tame 16 t' n); [lia|exact D]|].
    eexists. eexists. split; [reflexivity|exact Z0].
  - split; [exact (number_in_ok 8 t' n ltac:(lia) N D)|]. split; [repeat constructor; apply (denotes_tame 8 t' n); [lia|exact D]|].
    eexists. eexists. split; [reflexivity|exact Z0].
  - split; [|split; [repeat constructor; apply (denotes_tame 8 t' n); [lia|exact D]|eexists; eexists; split; [reflexivity|exact Z0]]].
    destruct t' as [|c u]; [congruence|]. pose proof (number_in_ok 8 (String c u) n ltac:(lia) N D) as X.
    destruct D as [F _]. cbn [chars] in F. inversion F as [|? ? B F']; subst. unfold is_base_digit in B.
    cbn [String.append chars int0_unsigned].
    assert (NE : forall x, ~ (0 <= char_digit x < 8) -> Ascii.eqb c x = false) by (intros x NX; apply Ascii.eqb_neq; intros ->; now apply NX).
    rewrite !NE by (vm_compute; intros [? ?]; congruence). exact X.
  - split; [exact (number_in_ok 2 t' n ltac:(lia) N D)|]. split; [repeat constructor; apply (denotes_tame 2 t' n); [lia|exact D]|].
    eexists. eexists. split; [reflexivity|exact Z0].
Qed.

Lemma int_base0_head : forall s c l, chars s = c :: l -> c <> "-"%char -> c <> "+"%char ->
  int_base0 s = match int0_unsigned (c :: l) with Some z => Ok z | None => Err ValueError end.
Proof.
  intros s c l E M P. unfold int_base0. rewrite E. destruct c as [[] [] [] [] [] [] [] []]; try reflexivity; exfalso; [apply P|apply M]; reflexivity.
Qed.

Lemma integer_ok : forall t n, integer t n -> int_base0 t = Ok n /\ tame_text t /\ 
  exists c l, chars t = c :: l /\ (is_base_digit 10 c \/ c = "-"%char \/ c = "+"%char).
Proof.
  intros t n H. inversion H as [t' n' N|t' n' N|t' n' N]; subst; destruct (numeral_ok _ _ N) as [I [T [c [l [E D]]]]].
  - split; [|split; [exact T|]].
    + rewrite (int_base0_head t c l E). 2,3: intros ->; destruct D as [D1 D2]; vm_compute in D1; apply D1; reflexivity. rewrite <- E, I. reflexivity.
    + exists c, l. split; [exact E|now left].
  - split; [|split].
    + unfold int_base0. cbn [String.append chars]. rewrite I. reflexivity.
    + constructor; [reflexivity|exact T].
    + eexists. eexists. split; [reflexivity|]. right. now left.
  - split; [|split].
    + unfold int_base0. cbn [String.append chars]. rewrite I. reflexivity.
    + constructor; [reflexivity|exact T].
    + eexists. eexists. split; [reflexivity|]. right. now right.
Qed.

(** The text processing on tame text. *)
Definition clean (s : string) : string := str_filter (fun c => negb (Ascii.eqb c "_")) (lower s).
Lemma of_chars_chars : forall s, of_chars (chars s) = s.
Proof. induction s as [|c s IH]; cbn; [reflexivity|now rewrite IH]. Qed.
Lemma chars_of_chars : forall l, chars (of_chars l) = l.
Proof. induction l as [|c l IH]; cbn; [reflexivity|now rewrite IH]. Qed.
Lemma tame_split : forall c, tame c = true -> is_ws c = false /\ Ascii.eqb c "," = false /\ Ascii.eqb c "_" = false /\ Ascii.eqb c "[" = false /\ lower_char c = c.
Proof.
  intros c H. unfold tame in H. repeat (apply andb_prop in H; destruct H as [H ?]).
  repeat match goal with X : negb _ = true |- _ => apply negb_true_iff in X end.
  repeat split; try assumption. now apply Ascii.eqb_eq.
Qed.
Lemma clean_app : forall a b, clean (a +++ b) = clean a +++ clean b.
Proof.
  intros a b. unfold clean, str_filter. 
  assert (L : lower (a +++ b) = lower a +++ lower b) by (induction a as [|c a IH]; cbn; [reflexivity|now rewrite IH]).
  assert (O : forall l l', of_chars (l ++ l') = of_chars l +++ of_chars l') by (induction l as [|c l IH]; intros l'; cbn; [reflexivity|now rewrite IH]).
  now rewrite L, chars_app, filter_app, O.
Qed.
Lemma clean_tame : forall s, tame_text s -> clean s = s.
Proof.
  induction s as [|c s IH]; intros H; [reflexivity|]. inversion H as [|? ? T H']; subst.
  destruct (tame_split c T) as [_ [_ [U [_ L]]]]. change (String c s) with (String c "" +++ s). rewrite clean_app, IH by exact H'.
  unfold clean, str_filter. cbn [lower chars filter]. rewrite L, U. reflexivity.
Qed.
Lemma drop_ws_id : forall l, Forall (fun c => is_ws c = false) l -> drop_ws l = l.
Proof. intros [|c l] H; [reflexivity|]. inversion H as [|? ? W _]; subst. cbn [drop_ws]. now rewrite W. Qed.
Lemma strip_tame : forall s, tame_text s -> strip s = s.
Proof.
  intros s H. assert (W : Forall (fun c => is_ws c = false) (chars s)) by (eapply Forall_impl; [|exact H]; intros c T; now apply tame_split).
  unfold strip, strip_ws. rewrite (drop_ws_id _ W), (drop_ws_id (rev (chars s))) by now apply Forall_rev.
  now rewrite rev_involutive, of_chars_chars.
Qed.
Lemma split_on_none : forall c l, Forall (fun x => Ascii.eqb x c = false) l -> split_on c l = [l].
Proof. induction l as [|x l IH]; intros F; [reflexivity|]. inversion F as [|? ? E F']; subst. cbn [split_on]. now rewrite E, IH. Qed.
Lemma split_on_app : forall c l l', Forall (fun x => Ascii.eqb x c = false) l -> split_on c (l ++ c :: l') = l :: split_on c l'.
Proof.
  induction l as [|x l IH]; intros l' F; cbn [split_on app].
  - now rewrite Ascii.eqb_refl.
  - inversion F as [|? ? E F']; subst. now rewrite E, IH.
Qed.
Lemma tame_no_comma : forall s, tame_text s -> Forall (fun x => Ascii.eqb x "," = false) (chars s).
Proof. intros s H. eapply Forall_impl; [|exact H]. intros c T. now apply tame_split. Qed.
Lemma inner_brackets : forall x, inner ("[" +++ x +++ "]") = x.
Proof. intros x. unfold inner. cbn [String.append chars]. rewrite chars_app. cbn [chars]. rewrite removelast_last. apply of_chars_chars. Qed.

(** Registers *)
Lemma dict_get_In : forall (V : Type) (d : list (string * V)) s v, dict_get String.eqb s d = Some v -> In (s, v) d.
Proof.
  induction d as [|[k x] d IH]; intros s v H; [discriminate H|]. cbn in H. destruct (String.eqb s k) eqn:E.
  - apply String.eqb_eq in E. injection H as <-. subst. now left. - right. now apply IH.
Qed.
Definition head_letter (s : string) : bool := match s with String c _ => is_letter c | "" => false end.
Lemma register_names : forall s k, dict_get String.eqb s CORE_REGISTER = Some k -> head_letter s = true /\ tame_text s.
Proof.
  intros s k H. apply dict_get_In in H.
  assert (F : forallb (fun p => head_letter (fst p) && forallb tame (chars (fst p))) CORE_REGISTER = true) by (vm_compute; reflexivity).
  rewrite forallb_forall in F. specialize (F _ H). cbn [fst] in F. apply andb_prop in F. destruct F as [F G]. split; [exact F|].
  unfold tame_text. rewrite forallb_forall in G. apply Forall_forall. exact G.
Qed.
Lemma integer_not_register : forall t n, integer t n -> is_register t = false.
Proof.
  intros t n H. unfold is_register. destruct (dict_get String.eqb t CORE_REGISTER) as [k|] eqn:E; [|reflexivity].
  destruct (register_names t k E) as [HL _]. destruct (integer_ok t n H) as [_ [_ [c [l [C D]]]]].
  destruct t as [|a t']; [discriminate C|]. cbn [chars] in C. injection C as -> _. cbn [head_letter] in HL.
  destruct D as [D|[->| ->]]; [|discriminate HL|discriminate HL]. exfalso.
  pose proof (all_ascii (fun c => negb ((0 <=? char_digit c) && (char_digit c <? 10) && is_letter c)) ltac:(vm_compute; reflexivity) c) as A.
  cbn beta in A. unfold is_base_digit in D. rewrite HL in A. replace (0 <=? char_digit c) with true in A by lia. replace (char_digit c <? 10) with true in A by lia. discriminate A.
Qed.
