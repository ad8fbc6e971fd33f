(** * Formatting: proofs *)
From Coq Require Import Lia.
From Verif Require Import InsnModel TableModel ExecModel SpecArm SpecDecoder SpecCpu SpecExec IsaThms ExecFacts ExecShape ExecRows ExecArithThms ExecRefThms FormatModel FormatFacts BitText HelpFacts SpecBits SpecIsa SpecWhole SpecFormat.
Import ListNotations.
Local Open Scope string_scope.
Local Open Scope list_scope.
Local Open Scope Z_scope.
(*@imports
From Coq Require Import Lia.
From Verif Require Import InsnModel TableModel ExecModel SpecArm SpecDecoder SpecCpu SpecExec FormatModel SpecBits SpecIsa SpecWhole SpecFormat FormatThms.
Import ListNotations.
Local Open Scope string_scope.
Local Open Scope list_scope.
Local Open Scope Z_scope.
@*)

(** ** The operands of decoded instructions *)
Definition row_good (r : isa_row) : Prop := forall py w,
  match observed py r w with Gives m k l ops => Forall (good (attributes l)) ops | _ => True end.
Ltac good_side := first
  [ lia
  | match goal with |- context [?x mod 8] => pose proof (Z.mod_pos_bound x 8 ltac:(lia)) end; lia
  | exact Logic.I ].
Ltac good_op := cbn [good odd_mask];
  match goal with
  | |- exists v, bits 16 ?x = bits 16 v /\ _ => exists x; split; [reflexivity|first [apply half_pow; lia | unfold reglist; lia]]
  | |- exists v, a_imm32 _ = Some (bits 32 v) /\ _ => eexists; split; [reflexivity|change (2 ^ 32) with 4294967296; lia]
  | |- exists s, bits 8 ?x = bits 8 s /\ _ => exists x; split; [reflexivity|split; [lia|first [exact Logic.I | eexists; split; [reflexivity|lia]]]]
  | |- _ => repeat split; good_side
  end.
Ltac good_list := repeat match goal with
  | |- Forall _ (_ ++ _) => apply Forall_app; split
  | |- Forall _ (if ?b then _ else _) => destruct b eqn:?
  | |- Forall _ [] => apply Forall_nil
  | |- Forall _ (_ :: _) => apply Forall_cons; [good_op|]
  end.
Lemma rows_good : Forall row_good (isa16 ++ isa32).
Proof.
  apply Forall_app. split; unfold isa16, isa32; repeat (apply Forall_cons; [
    intros py w; unfold observed, documented; cbn [r_dev row row_dev r_text r_doc];
    side_bounds w;
    repeat match goal with |- match (if ?b then _ else _) with _ => _ end => destruct b eqn:? end;
    cbv iota; try exact Logic.I; unfold SpecIsa.R, SpecIsa.V, V0, RL; cbn [app]; good_list
    |]); apply Forall_nil.
Qed.
Lemma decoded_good : forall py i, from_bytes py i -> Forall (good (i_attrs i)) (i_operands i).
Proof.
  intros py i (data & a & B & E).
  assert (L : (2 <= List.length data)%nat) by (destruct (C30_bytes_proof py data a i B E) as (_ & _ & S & S'); destruct (in_dec Z.eq_dec _ _) in S; lia).
  destruct (decode_cases py data a B L) as [X|[X|[w [is32 [r [I [F [O [X D]]]]]]]]]; rewrite X in E; try discriminate E.
  pose proof (proj1 (Forall_forall _ _) rows_good r I py w) as S.
  destruct (observed py r w) as [m k l ops| | |e]; cbn [decoded] in E; try discriminate E. injection E as <-. exact S.
Qed.

(** ** The columns of bytes *)
Lemma le16_number : forall b0 b1, 0 <= b0 < 256 -> Z.lor b0 (Z.shiftl b1 8) = le_number [b0; b1].
Proof. intros b0 b1 B. rewrite UtilFacts.lor_byte by (try change (2 ^ 8) with 256; lia). change (2 ^ 8) with 256. cbn [le_number]. lia. Qed.
Lemma halfword_ok : forall b0 b1, 0 <= b0 < 256 -> 0 <= b1 < 256 -> halfword_text (fmt_0x 4 (Z.lor b0 (Z.shiftl b1 8))) [b0; b1].
Proof.
  intros b0 b1 B0 B1. rewrite le16_number by exact B0. assert (R : 0 <= le_number [b0; b1] < 16 ^ 4) by (cbn [le_number]; change (16 ^ 4) with 65536; lia).
  split; [|apply fmt_0x_denotes; lia]. pose proof (fmt_0x_length 4 (le_number [b0; b1]) ltac:(lia) R) as L. unfold strlen in L. lia.
Qed.
Lemma byte_string_ok : forall i, exists s, byte_string (i_bytes i) = Ok s /\ byte_column (i_bytes i) (pad_right 12 s).
Proof.
  intros i. unfold i_bytes, i_size. set (b := fun k => Z.land (Z.shiftr (i_word i) (8 * k)) 255).
  assert (B : forall k, 0 <= b k < 256).
  { intros k. unfold b. change 255 with (Z.ones 8). rewrite Z.land_ones by lia. apply Z.mod_pos_bound. reflexivity. }
  destruct (i_is32 i).
  - change (map b (py_range 4)) with [b 0; b 1; b 2; b 3]. eexists. split; [reflexivity|].
    pose proof (halfword_ok (b 0) (b 1) (B 0) (B 1)) as H. pose proof (halfword_ok (b 2) (b 3) (B 2) (B 3)) as H'.
    cbn [byte_column]. do 2 eexists. split; [|split; [exact H|exact H']].
    rewrite pad_left. unfold left_justified. rewrite string_length_app. destruct H as [L _]. destruct H' as [L' _].
    rewrite L. change (String.length (" " +++ ?x)) with (S (String.length x)). rewrite L'.
    change (Z.to_nat (12 - Z.of_nat (4 + 5))) with 3%nat. rewrite !append_assoc. reflexivity.
  - change (map b (py_range 2)) with [b 0; b 1]. eexists. split; [reflexivity|].
    pose proof (halfword_ok (b 0) (b 1) (B 0) (B 1)) as H. cbn [byte_column]. eexists. split; [|exact H].
    rewrite pad_left. unfold left_justified. destruct H as [L _]. rewrite L. reflexivity.
Qed.

(** Everything about the line of an instruction with good operands. *)
Lemma format_good : forall i, Forall (good (i_attrs i)) (i_operands i) -> exists column ops ss c,
  let text := match c with
    | [] => column +++ " " +++ left_justified 8 (i_mnemonic i) +++ separated ", " ss
    | _ => left_justified 36 (column +++ " " +++ left_justified 8 (i_mnemonic i) +++ separated ", " ss) +++ " ; " +++ separated " " c
    end in
  byte_column (i_bytes i) column /\ formats_all i (i_operands i) ops ss c /\
  (ordinary i -> shows_all (i_address i) (imm_value i) (i_operands i) ss c) /\
  (forall f, format f i = Ok (set_operands ops i, mkfmt None c, text)) /\
  (forall f, format f (set_operands ops i) = Ok (set_operands ops i, mkfmt None c, text)).
Proof.
  intros i G. destruct (byte_string_ok i) as (s & E & C).
  assert (F : Forall (fine i) (i_operands i)) by (rewrite Forall_forall in *; intros o I; apply good_fine, G, I).
  destruct (fine_list i _ F) as (ops & ss & c & F1 & F2 & S).
  exists (pad_right 12 s), ops, ss, c. split; [exact C|]. split; [exact F1|]. split; [exact S|]. split; intros f.
  - unfold format. rewrite E. cbn [bind]. rewrite (F1 i [] eq_refl eq_refl). cbn [bind app f_comments].
    rewrite !pad_left, !join_separated. rewrite !append_assoc. destruct c; reflexivity.
  - unfold format. change (i_bytes (set_operands ops i)) with (i_bytes i). rewrite E. cbn [bind].
    change (i_operands (set_operands ops i)) with ops. rewrite (F2 (set_operands ops i) [] eq_refl eq_refl). cbn [bind app f_comments].
    rewrite !pad_left, !join_separated. rewrite !append_assoc. change (i_mnemonic (set_operands ops i)) with (i_mnemonic i). destruct c; reflexivity.
Qed.

(** ** C57 *)
(*@doc C57: a decoded instruction can always be formatted, and the text starts with its
halfwords in hexadecimal, padded to 12 columns, and the mnemonic, padded to 8. @*)
Lemma C57_column_proof : forall py i f, from_bytes py i -> exists text column rest,
  text_of f i = Ok text /\ byte_column (i_bytes i) column /\ text = column +++ " " +++ left_justified 8 (i_mnemonic i) +++ rest.
Proof.
  intros py i f B. destruct (format_good i (decoded_good py i B)) as (column & ops & ss & c & C & _ & _ & F & _).
  unfold text_of. rewrite F. cbn [bind]. destruct c as [|x c].
  - do 3 eexists. split; [reflexivity|]. split; [exact C|]. reflexivity.
  - do 3 eexists. split; [reflexivity|]. split; [exact C|]. unfold left_justified at 1. rewrite !append_assoc. reflexivity.
Qed.
(*@ex
Example C57_column_ex : exists i, decode_bytes Py2 [0; 240; 3; 248] 100 = Ok i /\
  text_of (mkfmt None ["junk"]) i = Ok "f000 f803    bl      .+10            ; 0x6e".
Proof. eexists. split; vm_compute; reflexivity. Qed.
@*)

Lemma append_length_eq : forall a b c d : string, String.length a = String.length c -> a +++ b = c +++ d -> a = c /\ b = d.
Proof.
  induction a as [|x a IH]; intros b [|y c] d L E; try discriminate L; [split; [reflexivity|exact E]|].
  cbn in L, E. injection L as L. injection E as -> E. destruct (IH _ _ _ L E) as [-> ->]. split; reflexivity.
Qed.
Lemma blank_not_hex : forall s n r, halfword_text s n -> s <> String " " r.
Proof.
  intros s n r [_ [F _]] ->. cbn in F. inversion F as [|? ? D _]; subst. unfold is_base_digit in D. change (char_digit " ") with (-16) in D. lia.
Qed.
Lemma number_inj : forall b0 b1 b0' b1', bytes [b0; b1] -> bytes [b0'; b1'] -> le_number [b0; b1] = le_number [b0'; b1'] -> b0 = b0' /\ b1 = b1'.
Proof.
  intros b0 b1 b0' b1' B B' E. inversion B as [|? ? B0 B1]; subst. inversion B1 as [|? ? B2 _]; subst.
  inversion B' as [|? ? B0' B1']; subst. inversion B1' as [|? ? B2' _]; subst. cbn [le_number] in E. lia.
Qed.
(*@doc C57: the first 12 columns determine the bytes. @*)
Lemma C57_identifies_proof : forall l l' s, bytes l -> bytes l' -> byte_column l s -> byte_column l' s -> l = l'.
Proof.
  intros l l' s B B' C C'.
  destruct l as [|b0 [|b1 [|b2 [|b3 [|b4 l]]]]]; try destruct C; destruct l' as [|c0 [|c1 [|c2 [|c3 [|c4 l']]]]]; try destruct C'.
  - destruct H as [-> [L N]]. destruct H0 as [E [L' N']]. apply append_length_eq in E; [|congruence]. destruct E as [-> _].
    destruct (number_inj _ _ _ _ B B' (denotes_fun _ _ _ _ N N')) as [-> ->]. reflexivity.
  - destruct H as [-> [L N]]. destruct H0 as (h' & E & [L' N'] & H'). apply append_length_eq in E; [|congruence]. destruct E as [_ E].
    cbn in E. injection E as E. destruct h' as [|y h']; [destruct H' as [H' _]; discriminate H'|]. cbn in E. injection E as E _. subst y. exfalso. exact (blank_not_hex _ _ _ H' eq_refl).
  - destruct H as (h' & -> & [L N] & H'). destruct H0 as [E [L' N']]. apply append_length_eq in E; [|congruence]. destruct E as [_ E].
    cbn in E. injection E as E. destruct h' as [|y h']; [destruct H' as [H' _]; discriminate H'|]. cbn in E. injection E as E _. subst y. exfalso. exact (blank_not_hex _ _ _ H' eq_refl).
  - destruct H as (h' & -> & [L N] & [L2 N2]). destruct H0 as (h'' & E & [L' N'] & [L3 N3]). apply append_length_eq in E; [|congruence]. destruct E as [-> E].
    cbn in E. injection E as E. apply append_length_eq in E; [|congruence]. destruct E as [-> _].
    inversion B as [|? ? B0 X]; subst. inversion X as [|? ? B1 X2]; subst. inversion B' as [|? ? B0' Y]; subst. inversion Y as [|? ? B1' Y2]; subst.
    destruct (number_inj b0 b1 c0 c1 (Forall_cons _ B0 (Forall_cons _ B1 (Forall_nil _))) (Forall_cons _ B0' (Forall_cons _ B1' (Forall_nil _))) (denotes_fun _ _ _ _ N N')) as [-> ->].
    destruct (number_inj _ _ _ _ X2 Y2 (denotes_fun _ _ _ _ N2 N3)) as [-> ->]. reflexivity.
Qed.
(*@ex
Example C57_identifies_ex : byte_column [0; 240; 3; 248] "f000 f803   " /\ byte_column [3; 72] "4803        ".
Proof.
  split; cbn [byte_column].
  - exists "f000", "f803". split; [reflexivity|]. split; (split; [reflexivity|]); (split; [repeat (apply Forall_cons; [split; vm_compute; [intros H; discriminate H|reflexivity]|]); apply Forall_nil|reflexivity]).
  - exists "4803". split; [reflexivity|]. split; [reflexivity|]. split; [repeat (apply Forall_cons; [split; vm_compute; [intros H; discriminate H|reflexivity]|]); apply Forall_nil|reflexivity].
Qed.
@*)

(** ** C58 *)
(*@doc C58: a register list, of any width up to the register file, prints as the runs of its
registers: in increasing order, separated by gaps (so maximal), and covering exactly the
registers listed. @*)
Lemma C58_runs_proof : forall f w v, 0 <= w <= 16 -> 0 <= v < 2 ^ w ->
  exists t, format_operand f (ReglistOp (bits w v)) = Ok (ReglistOp (bits w v), f, Some t) /\ reglist_text w v t.
Proof.
  intros f w v W V. destruct (reglist_ok w v W V) as (t & E & T). exists t. split; [|exact T]. cbn [format_operand]. rewrite E. reflexivity.
Qed.
(*@ex
Example C58_runs_ex : format_operand (mkfmt None []) (ReglistOp (bits 16 57591)) =
  Ok (ReglistOp (bits 16 57591), mkfmt None [], Some "{r0-r2,r4-r7,sp-pc}") /\
  Z.testbit 57591 3 = false /\ Z.testbit 57591 5 = true /\ Z.testbit 57591 14 = true.
Proof. vm_compute. repeat split; reflexivity. Qed.
@*)

(** A check of all numbers that start with the given bits. *)
Fixpoint check_all (k : nat) (acc : Z) (p : Z -> bool) : bool :=
  match k with O => p acc | S k' => (check_all k' (2 * acc) p && check_all k' (2 * acc + 1) p)%bool end.
Lemma check_all_ok : forall k acc p, check_all k acc p = true -> forall v, acc * 2 ^ Z.of_nat k <= v < (acc + 1) * 2 ^ Z.of_nat k -> p v = true.
Proof.
  induction k as [|k IH]; intros acc p H v V.
  - cbn [check_all] in H. change (2 ^ Z.of_nat 0) with 1 in V. replace v with acc by lia. exact H.
  - cbn [check_all] in H. apply Bool.andb_true_iff in H. destruct H as [H H'].
    rewrite Nat2Z.inj_succ, Z.pow_succ_r in V by lia. set (q := 2 ^ Z.of_nat k) in *.
    destruct (Z_lt_ge_dec v ((2 * acc + 1) * q)) as [L|L]; [apply (IH _ _ H)|apply (IH _ _ H')]; fold q; lia.
Qed.
Definition reads_back (v : Z) : bool :=
  match format_reglist (bits 16 v) with
  | Ok t => match read_reglist t with Some u => u =? v | None => false end
  | Err _ => false
  end.
Lemma reads_back_all : check_all 16 0 reads_back = true.
Proof. vm_compute. reflexivity. Qed.
(*@doc C58: the printed text, read back by cutting it at commas and dashes, gives the list. @*)
Lemma C58_readable_proof : forall f v, 0 <= v < 65536 ->
  exists t, format_operand f (ReglistOp (bits 16 v)) = Ok (ReglistOp (bits 16 v), f, Some t) /\ read_reglist t = Some v.
Proof.
  intros f v V. pose proof (check_all_ok 16 0 reads_back reads_back_all v ltac:(change (2 ^ Z.of_nat 16) with 65536; lia)) as H. unfold reads_back in H.
  cbn [format_operand]. destruct (format_reglist (bits 16 v)) as [t|e]; [|discriminate H]. exists t. split; [reflexivity|].
  destruct (read_reglist t) as [u|]; [|discriminate H]. apply Z.eqb_eq in H. subst u. reflexivity.
Qed.
(*@ex
Example C58_readable_ex : read_reglist "{r0-r2,r4-r7,sp-pc}" = Some 57591 /\ read_reglist "{r0-r2,r4-r7,sp-pc" = None.
Proof. vm_compute. repeat split; reflexivity. Qed.
@*)

(** ** C62 *)
(*@doc C62: the whole line of a decoded instruction: its operands as they should be shown, at
its address and with its immediate, with the comments in column 36. Missing here: msr with
a mask that the code prints wrongly (C61_refuted). @*)
Lemma C62_line_partial_proof : forall py i f, from_bytes py i -> ordinary i -> exists texts comments text,
  text_of f i = Ok text /\ shows_all (i_address i) (imm_value i) (i_operands i) texts comments /\ line i texts comments text.
Proof.
  intros py i f B O. destruct (format_good i (decoded_good py i B)) as (column & ops & ss & c & C & _ & S & F & _).
  unfold text_of. rewrite F. cbn [bind]. do 3 eexists. split; [reflexivity|]. split; [exact (S O)|]. exists column. split; [exact C|]. reflexivity.
Qed.
(*@ex
Example C62_line_partial_ex : exists i, decode_bytes Py2 [3; 72] 100 = Ok i /\ ordinary i /\
  text_of (mkfmt None []) i = Ok "4803         ldr     r0, [pc, #12]   ; 0xc".
Proof. eexists. split; [vm_compute; reflexivity|]. split; vm_compute; reflexivity. Qed.
@*)

Lemma simple_shows : forall i cs o, (forall l, o <> MemOp l) -> good (i_attrs i) o -> odd_mask o = false ->
  exists o' s c, format_operand (mkfmt (Some i) cs) o = Ok (o', mkfmt (Some i) (cs ++ c), s) /\ shows (i_address i) (imm_value i) o s c.
Proof.
  intros i cs o _ G M. destruct (good_fine i o G) as (o' & s & c & F & _ & S). exists o', s, c. split; [apply F; reflexivity|exact (S M)].
Qed.
(*@doc C62: any integer, hidden when zero if so requested. @*)
Lemma C62_number_proof : forall i cs v hide, exists s c,
  format_operand (mkfmt (Some i) cs) (ImmOp v hide) = Ok (ImmOp v hide, mkfmt (Some i) (cs ++ c), s) /\
  match s with
  | None => v = 0 /\ hide = true /\ c = []
  | Some t => (v <> 0 \/ hide = false) /\ number_shown v t c
  end.
Proof.
  intros i cs v hide. destruct (good_fine i (ImmOp v hide) Logic.I) as (o' & s & c & F & _ & S). specialize (S eq_refl).
  assert (o' = ImmOp v hide) as ->.
  { specialize (F i cs eq_refl eq_refl). cbn [format_operand] in F. destruct (format_immediate _ v hide). congruence. }
  exists s, c. split; [apply F; reflexivity|]. inversion S; subst; auto.
Qed.
(*@ex
Example C62_number_ex : format_operand (mkfmt None []) (ImmOp 300 true) = Ok (ImmOp 300 true, mkfmt None ["0x12c"], Some "#300") /\
  format_operand (mkfmt None []) (ImmOp (-300) true) = Ok (ImmOp (-300) true, mkfmt None [], Some "#-300") /\
  format_operand (mkfmt None []) (ImmOp 0 true) = Ok (ImmOp 0 true, mkfmt None [], None).
Proof. vm_compute. repeat split; reflexivity. Qed.
@*)

(*@doc C62: a label prints the signed distance from the instruction. @*)
Lemma C62_label_proof : forall i cs off, exists s h,
  format_operand (mkfmt (Some i) cs) (LabelOp off) = Ok (LabelOp off, mkfmt (Some i) (cs ++ ["0x" +++ h]), Some ("." +++ s)) /\
  sign_text s (off + 4) /\ hex_text h (i_address i + 4 + off).
Proof.
  intros i cs off. exists (fmt_plus_d (off + 4)), (fmt_x (i_address i + 4 + off)). split; [reflexivity|]. split; [apply fmt_plus_text|apply fmt_x_text].
Qed.
(*@ex
Example C62_label_ex : exists i, decode_bytes Py2 [254; 231] 4096 = Ok i /\
  format_operand (mkfmt (Some i) ["x"]) (LabelOp (-4)) = Ok (LabelOp (-4), mkfmt (Some i) ["x"; "0x1000"], Some ".+0").
Proof. eexists. split; vm_compute; reflexivity. Qed.
@*)

(*@doc C62: a text denotes at most one number, so that reading it gives the number back. @*)
Lemma C62_readable_proof : forall s z z',
  (dec_text s z -> dec_text s z' -> z = z') /\ (hex_text s z -> hex_text s z' -> z = z') /\ (sign_text s z -> sign_text s z' -> z = z').
Proof.
  assert (M : forall b t z, 0 < b -> canonical b ("-" +++ t) z -> False).
  { intros b t z P [[F _] _]. cbn in F. inversion F as [|? ? D _]; subst. unfold is_base_digit in D. change (char_digit "-") with (-3) in D. lia. }
  assert (G : forall b, 0 < b -> forall s z z',
    (if z <? 0 then exists t, s = "-" +++ t /\ canonical b t (- z) else canonical b s z) ->
    (if z' <? 0 then exists t, s = "-" +++ t /\ canonical b t (- z') else canonical b s z') -> z = z').
  { intros b P s z z' H H'. destruct (z <? 0); destruct (z' <? 0).
    - destruct H as (t & -> & C). destruct H' as (t' & E & C'). cbn in E. injection E as <-.
      pose proof (denotes_fun _ _ _ _ (proj1 C) (proj1 C')). lia.
    - destruct H as (t & -> & C). destruct (M _ _ _ P H').
    - destruct H' as (t & -> & C). destruct (M _ _ _ P H).
    - exact (denotes_fun _ _ _ _ (proj1 H) (proj1 H')). }
  intros s z z'. split; [exact (G 10 ltac:(lia) s z z')|]. split; [exact (G 16 ltac:(lia) s z z')|].
  unfold sign_text. destruct (z <? 0); destruct (z' <? 0); intros (t & -> & C) (t' & E & C'); cbn in E; try discriminate E; injection E as <-;
  pose proof (denotes_fun _ _ _ _ (proj1 C) (proj1 C')); lia.
Qed.
(*@ex
Example C62_readable_ex : exists s, sign_text s (-18) /\ s = "-18".
Proof.
  exists "-18". split; [|reflexivity]. exists "18". split; [reflexivity|]. split; [(split; [repeat (apply Forall_cons; [split; vm_compute; [intros H; discriminate H|reflexivity]|]); apply Forall_nil|reflexivity])|].
  split; [discriminate|]. intros _. exists "1"%char, "8". split; [reflexivity|discriminate].
Qed.
@*)

(** ** C61 *)
(*@doc C61: every special register prints under its name; exactly the values of SYSm that are
special registers have one. @*)
Lemma C61_names_proof : forall f y, 0 <= y < 256 ->
  format_operand f (SpecialOp (bits 8 y) None) = Ok (SpecialOp (bits 8 y) None, f, Some (special_name y)) /\
  special y = negb (String.eqb (special_name y) "").
Proof.
  intros f y Y. split; [cbn [format_operand]; rewrite special_plain by exact Y; reflexivity|].
  apply (sweep _ special (fun y => negb (String.eqb (special_name y) "")) 256); [vm_compute; reflexivity|exact Y].
Qed.
(*@ex
Example C61_names_ex : format_operand (mkfmt None []) (SpecialOp (bits 8 18) None) =
  Ok (SpecialOp (bits 8 18) None, mkfmt None [], Some "BASEPRI_MAX").
Proof. vm_compute. reflexivity. Qed.
@*)

(*@doc C61: with a mask, the suffix is right for mask 01 and for registers without a suffix.
For masks 10 and 11 the comparison with -1 turns the mask into its complement first, so
that 10 prints as 01 and 11 prints no suffix. @*)
Lemma C61_suffix_partial_proof : forall f y k, 0 <= y < 256 -> 0 <= k < 4 ->
  format_operand f (SpecialOp (bits 8 y) (Some (bits 2 k))) =
    Ok (SpecialOp (bits 8 y) (Some (bits 2 (mask_after y k))), f, Some (special_name y +++ (if y <? 4 then printed_suffix k else ""))) /\
  (k < 2 -> printed_suffix k = mask_suffix k).
Proof.
  intros f y k Y K. split.
  - cbn [format_operand]. rewrite special_masked by assumption. cbn [bind]. destruct (y <? 4); [reflexivity|]. rewrite append_nil. reflexivity.
  - intros L. unfold printed_suffix, mask_suffix. destruct (k =? 1) eqn:K1; [reflexivity|]. destruct (k =? 2) eqn:K2; [lia|]. destruct (k =? 3) eqn:K3; [lia|]. reflexivity.
Qed.
(*@ex
Example C61_suffix_partial_ex : format_operand (mkfmt None []) (SpecialOp (bits 8 3) (Some (bits 2 1))) =
  Ok (SpecialOp (bits 8 3) (Some (bits 2 1)), mkfmt None [], Some "XPSR_g").
Proof. vm_compute. reflexivity. Qed.
@*)

(*@doc C61: refuted: msr APSR_nzcvq, r0 prints as msr APSR_g, r0, and msr APSR_nzcvqg, r0 as
msr APSR, r0. @*)
Lemma C61_refuted_proof : exists i j, from_bytes Py2 i /\ i_operands i = [SpecialOp (bits 8 0) (Some (bits 2 2)); R 0] /\
  from_bytes Py2 j /\ i_operands j = [SpecialOp (bits 8 0) (Some (bits 2 3)); R 0] /\
  forall f, text_of f i = Ok "f380 8800    msr     APSR_g, r0" /\ text_of f j = Ok "f380 8c00    msr     APSR, r0".
Proof.
  assert (X : exists i, decode_bytes Py2 [128; 243; 0; 136] 0 = Ok i /\ i_operands i = [SpecialOp (bits 8 0) (Some (bits 2 2)); R 0] /\
    forall f, text_of f i = Ok "f380 8800    msr     APSR_g, r0").
  { eexists. split; [vm_compute; reflexivity|]. split; [vm_compute; reflexivity|]. intros f. vm_compute. reflexivity. }
  assert (Y : exists i, decode_bytes Py2 [128; 243; 0; 140] 0 = Ok i /\ i_operands i = [SpecialOp (bits 8 0) (Some (bits 2 3)); R 0] /\
    forall f, text_of f i = Ok "f380 8c00    msr     APSR, r0").
  { eexists. split; [vm_compute; reflexivity|]. split; [vm_compute; reflexivity|]. intros f. vm_compute. reflexivity. }
  destruct X as (i & D & O & T). destruct Y as (j & D' & O' & T'). exists i, j.
  split; [exists [128; 243; 0; 136], 0; split; [bytes_tac|exact D]|]. split; [exact O|].
  split; [exists [128; 243; 0; 140], 0; split; [bytes_tac|exact D']|]. split; [exact O'|]. intros f. split; [apply T|apply T'].
Qed.

(** ** C60 *)
(*@doc C60: formatting a decoded instruction changes at most its operand objects, and gives
the same text again, with any formatter, on the original and on the formatted object. @*)
Lemma C60_repeatable_proof : forall py i, from_bytes py i -> exists ops text comments,
  forall f, format f i = Ok (set_operands ops i, mkfmt None comments, text) /\
            format f (set_operands ops i) = Ok (set_operands ops i, mkfmt None comments, text).
Proof.
  intros py i B. destruct (format_good i (decoded_good py i B)) as (column & ops & ss & c & _ & _ & _ & F & F').
  do 3 eexists. intros f. split; [apply F|apply F'].
Qed.
(*@ex
Example C60_repeatable_ex : exists i i', decode_bytes Py2 [128; 243; 0; 136] 0 = Ok i /\
  format (mkfmt None ["junk"]) i = Ok (i', mkfmt None [], "f380 8800    msr     APSR_g, r0") /\ i_operands i <> i_operands i' /\
  format (mkfmt (Some i) []) i' = Ok (i', mkfmt None [], "f380 8800    msr     APSR_g, r0").
Proof. eexists. eexists. split; [vm_compute; reflexivity|]. split; [vm_compute; reflexivity|]. split; [vm_compute; discriminate|vm_compute; reflexivity]. Qed.
@*)

(** What an instruction does has nothing to do with its operand objects. *)
Definition indep {A} (m : comp A) : Prop := forall c i l,
  m (mkst c (set_operands l i)) = (mkst (s_cpu (fst (m (mkst c i)))) (set_operands l (s_self (fst (m (mkst c i))))), snd (m (mkst c i))).
Lemma indep_bind : forall A B (m : comp A) (f : A -> comp B), indep m -> (forall a, indep (f a)) -> indep (mbind m f).
Proof.
  intros A B m f M F c i l. unfold mbind. rewrite (M c i l). destruct (m (mkst c i)) as [[c' i'] [a|e]]; cbn [fst snd s_cpu s_self]; [|reflexivity].
  apply F.
Qed.
Lemma indep_getc : forall A (f : cpu -> res A), indep (getc f).
Proof. intros A f c i l. reflexivity. Qed.
Lemma indep_lift : forall A (r : res A), indep (lift r).
Proof. intros A r c i l. reflexivity. Qed.
Lemma indep_setc : forall f, indep (setc f).
Proof. intros f c i l. unfold setc. cbn [s_cpu s_self]. destruct (f c); reflexivity. Qed.
Ltac indep_step :=
  match goal with
  | |- indep (mbind _ _) => apply indep_bind; [|intros ?]
  | |- indep (setc _) => apply indep_setc
  | |- indep (rset _ _) => apply indep_setc
  | |- indep (fset _ _) => apply indep_setc
  | |- indep (rget _) => apply indep_getc
  | |- indep (fget _) => apply indep_getc
  | |- indep (getc _) => apply indep_getc
  | |- indep (lift _) => apply indep_lift
  | |- indep (if ?b then _ else _) => destruct b
  | |- indep (match ?x with _ => _ end) => destruct x
  | |- indep (ret _) => intros ? ? ?; reflexivity
  | |- indep (fail _) => intros ? ? ?; reflexivity
  | |- indep (attr _) => intros ? ? ?; reflexivity
  | |- indep (hasattr _) => intros ? ? ?; reflexivity
  | |- indep (setattr _) => intros ? ? ?; reflexivity
  | |- indep size => intros ? ? ?; reflexivity
  | |- indep pc_next => unfold pc_next, pc_add
  | |- indep (put_imm _ _) => unfold put_imm
  | |- indep (listed _ _) => unfold listed
  end.
Lemma indep_store_loop : forall py l a, indep (store_loop py l a).
Proof. intros py. induction l as [|k l IH]; intros a; cbn [store_loop]; unfold listed, write32; repeat first [apply IH | indep_step]. Qed.
Lemma indep_load_loop : forall py l a, indep (load_loop py l a).
Proof. intros py. induction l as [|k l IH]; intros a; cbn [load_loop]; unfold listed; repeat first [apply IH | indep_step]. Qed.
Lemma indep_eval : forall py k, indep (eval py k).
Proof.
  intros py k. destruct k; cbn [eval]; unfold eval_Instruction, eval_AddSub, eval_BitOp, eval_BitClear, eval_ShiftOp, eval_ReverseSubtract,
    eval_Multiply, eval_AddressToRegister, eval_Extend, eval_ByteReverse, eval_Move, eval_ShiftedMoveNegate, eval_Compare, eval_Test,
    eval_Branch, eval_Load, eval_Store, eval_LoadLiteral, eval_Push, eval_Pop, eval_LoadMultiple, eval_StoreMultiple,
    eval_ChangeProcessorState, eval_MoveFromSpecial, eval_MoveToSpecial, mrs_xpsr, mrs_sp, mrs_mask, mrs_bit, pc_next, pc_add, set_flags,
    imm_or_m, put_imm, add_shared, address_of, listed, list_bytes, load_pc, wreg, rreg, sysm_is, sysm_bit, set_slice;
  repeat first [apply indep_store_loop | apply indep_load_loop | indep_step].
Qed.
(*@doc C60: an instruction that has been formatted executes like one that has not: the same
machine, the same exception, and the same object up to its operand objects. @*)
Lemma C60_execution_proof : forall py c f i i' f' text, format f i = Ok (i', f', text) -> exists ops, i' = set_operands ops i /\
  let '(s, r) := execute py c i in execute py c i' = (mkst (s_cpu s) (set_operands ops (s_self s)), r).
Proof.
  intros py c f i i' f' text E. unfold format in E. destruct (byte_string (i_bytes i)) as [s|e]; cbn [bind] in E; [|discriminate E].
  destruct (format_operands _ (i_operands i)) as [[[ops g] ss]|e]; cbn [bind] in E; [|discriminate E]. injection E as <- _ _.
  exists ops. split; [reflexivity|]. unfold execute. change (i_klass (set_operands ops i)) with (i_klass i).
  pose proof (indep_eval py (i_klass i) c i ops) as H. destruct (eval py (i_klass i) (mkst c i)) as [s' r]. exact H.
Qed.
(*@ex
Example C60_execution_ex : exists i i', decode_bytes Py2 [17; 48] 34 = Ok i /\
  format (mkfmt None []) i = Ok (i', mkfmt None ["0x11"], "3011         adds    r0, #17         ; 0x11") /\
  reg_after Py2 ex_state i 0 = reg_after Py2 ex_state i' 0 /\ reg_after Py2 ex_state i 0 = reg ex_state 0 + 17.
Proof. eexists. eexists. split; [vm_compute; reflexivity|]. split; [vm_compute; reflexivity|]. vm_compute. split; reflexivity. Qed.
@*)

(** ** C59 *)
Definition row_label (r : isa_row) : Prop := forall py w,
  match observed py r w with
  | Gives _ k l ops => forall off, In (LabelOp off) ops ->
      ops = [LabelOp off] /\ k = Branch \/
      k = AddressToRegister /\ 0 <= off < 4096 /\ exists d add, 0 <= d < 16 /\ l = [D d; Add add; Imm off] /\ ops = [R d; LabelOp off]
  | _ => True
  end.
Lemma label_inj : forall a b, LabelOp a = LabelOp b -> a = b.
Proof. intros a b E. congruence. Qed.
Ltac no_label := cbn [In app]; intuition discriminate.
Lemma rows_label : Forall row_label (isa16 ++ isa32).
Proof.
  apply Forall_app. split; unfold isa16, isa32; repeat (apply Forall_cons; [
    intros py w; unfold observed, documented; cbn [r_dev row row_dev r_text r_doc]; side_bounds w;
    repeat match goal with |- match (if ?b then _ else _) with _ => _ end => destruct b eqn:? end; cbv iota; try exact Logic.I;
    intros off IN; unfold SpecIsa.R, SpecIsa.V, V0, RL in *;
    first [exfalso; revert IN; no_label
      | exfalso; revert IN; match goal with |- context [if ?b then _ else _] => destruct b end; no_label
      | left; destruct IN as [IN|[]]; injection IN as <-; split; reflexivity
      | right; destruct IN as [IN|[IN|[]]]; [discriminate IN|apply label_inj in IN; subst off]; split; [reflexivity|]; split; [lia|]; do 2 eexists; split; [|split; reflexivity]; lia ] |]);
  apply Forall_nil.
Qed.
Lemma label_cases : forall py i off, from_bytes py i -> In (LabelOp off) (i_operands i) ->
  i_operands i = [LabelOp off] /\ i_klass i = Branch \/
  i_klass i = AddressToRegister /\ 0 <= off < 4096 /\
  exists d add, 0 <= d < 16 /\ i_attrs i = attributes [D d; Add add; Imm off] /\ i_operands i = [R d; LabelOp off].
Proof.
  intros py i off (data & a & B & E) IN.
  assert (L : (2 <= List.length data)%nat) by (destruct (C30_bytes_proof py data a i B E) as (_ & _ & S & S'); destruct (in_dec Z.eq_dec _ _) in S; lia).
  destruct (decode_cases py data a B L) as [X|[X|[w [is32 [r [I [F [O [X D]]]]]]]]]; rewrite X in E; try discriminate E.
  pose proof (proj1 (Forall_forall _ _) rows_label r I py w) as S.
  destruct (observed py r w) as [m k l ops| | |e]; cbn [decoded] in E; try discriminate E. injection E as <-. cbn [i_operands i_klass i_attrs] in *.
  destruct (S off IN) as [H|(K & V & d & add & Dd & -> & O')]; [left; exact H|right]. split; [exact K|]. split; [exact V|]. exists d, add. split; [exact Dd|]. split; [reflexivity|exact O'].
Qed.

(*@doc C59: the line of a decoded instruction with a label ends with a comment giving the
address of the instruction plus 4 plus the offset, in hexadecimal. @*)
Lemma C59_comment_proof : forall py i off f, from_bytes py i -> In (LabelOp off) (i_operands i) ->
  exists front h, text_of f i = Ok (front +++ " ; 0x" +++ h) /\ hex_text h (i_address i + 4 + off).
Proof.
  intros py i off f B IN.
  assert (O : ordinary i).
  { unfold ordinary. destruct (label_cases py i off B IN) as [[-> _]|(_ & _ & d & add & _ & _ & ->)]; reflexivity. }
  destruct (C62_line_partial_proof py i f B O) as (ts & cs & text & T & S & LN).
  assert (C : exists h, cs = ["0x" +++ h] /\ hex_text h (i_address i + 4 + off)).
  { destruct (label_cases py i off B IN) as [[O' _]|(_ & _ & d & add & _ & _ & O')]; rewrite O' in S.
    - inversion S as [|? ? ? ? ? S1 S2|? ? ? ? ? ? S1 S2]; subst; inversion S1; subst. inversion S2; subst. exists h. split; [reflexivity|assumption].
    - inversion S as [|? ? ? ? ? S1 S2|? ? ? ? ? ? S1 S2]; subst; inversion S1; subst.
      inversion S2 as [|? ? ? ? ? S3 S4|? ? ? ? ? ? S3 S4]; subst; inversion S3; subst. inversion S4; subst. exists h. split; [reflexivity|assumption]. }
  destruct C as (h & -> & H). destruct LN as (column & _ & ->). cbv zeta in T. eexists. exists h. split; [|exact H]. rewrite T. f_equal.
Qed.
(*@ex
Example C59_comment_ex : exists i, decode_bytes Py2 [2; 160] 100 = Ok i /\ In (LabelOp 8) (i_operands i) /\
  text_of (mkfmt None []) i = Ok "a002         adr     r0, .+12        ; 0x70".
Proof. eexists. split; [vm_compute; reflexivity|]. vm_compute. split; [right; left; reflexivity|reflexivity]. Qed.
@*)

(*@doc C59: a forward branch that is taken with pc at the address of the instruction goes to
the printed address. Missing: backward branches (C59_branch_refuted). @*)
Lemma C59_branch_partial_proof : forall py c i off k f, regs_ok c -> from_bytes py i -> i_klass i = Branch -> i_operands i = [LabelOp off] ->
  0 <= off -> a_cond (i_attrs i) = Some k -> holds_in k (reg c 16) = true -> reg c 15 = i_address i ->
  exists front h target, text_of f i = Ok (front +++ " ; 0x" +++ h) /\ hex_text h target /\
    snd (execute py c i) = Ok tt /\ reg_after py c i 15 = target mod 2 ^ 32.
Proof.
  intros py c i off k f R B K O P CD HD PC.
  destruct (C59_comment_proof py i off f B ltac:(rewrite O; left; reflexivity)) as (front & h & T & H).
  exists front, h, (i_address i + 4 + off). split; [exact T|]. split; [exact H|].
  destruct (C47_label_partial_proof py c i off k R B K O CD HD) as [E V]. split; [exact E|]. rewrite V, PC.
  destruct (Z.leb_spec 0 off); [reflexivity|lia].
Qed.
(*@ex
Example C59_branch_partial_ex : exists i, decode_bytes Py2 [3; 224] 34 = Ok i /\ i_operands i = [LabelOp 6] /\ a_cond (i_attrs i) = Some 15 /\
  reg ex_state 15 = i_address i /\ text_of (mkfmt None []) i = Ok "e003         b       .+10            ; 0x2c" /\ reg_after Py2 ex_state i 15 = 44.
Proof. eexists. split; [vm_compute; reflexivity|]. vm_compute. repeat split; reflexivity. Qed.
@*)

(*@doc C59: adr with a positive offset, executed with pc at the address of the instruction,
loads the printed address if the instruction is at a multiple of 4. Missing: other
addresses and negative offsets (C59_adr_refuted). @*)
Lemma C59_adr_partial_proof : forall py c i d off f, regs_ok c -> from_bytes py i -> i_klass i = AddressToRegister -> i_operands i = [R d; LabelOp off] ->
  a_add (i_attrs i) = Some true -> d <> 13 -> d <> 15 -> reg c 15 = i_address i -> i_address i mod 4 = 0 ->
  exists front h target, text_of f i = Ok (front +++ " ; 0x" +++ h) /\ hex_text h target /\
    snd (execute py c i) = Ok tt /\ reg_after py c i d = target mod 2 ^ 32.
Proof.
  intros py c i d off f R B K O AD D13 D15 PC AL.
  assert (IN : In (LabelOp off) (i_operands i)) by (rewrite O; right; left; reflexivity).
  destruct (C59_comment_proof py i off f B IN) as (front & h & T & H).
  exists front, h, (i_address i + 4 + off). split; [exact T|]. split; [exact H|].
  destruct (label_cases py i off B IN) as [[_ K']|(_ & V & d0 & add & Dd & A & O')]; [rewrite K in K'; discriminate K'|].
  rewrite O in O'. injection O' as <-. rewrite A in AD. injection AD as ->.
  assert (W : word off) by (unfold word; change (2 ^ 32) with 4294967296; lia).
  destruct (C53_adr_proof py c i d off true R ltac:(unfold gpr; lia) W (conj K A)) as (c' & E & _ & F).
  unfold reg_after. rewrite E. cbn [fst snd s_cpu]. split; [reflexivity|]. rewrite (F d) by (unfold core; lia).
  assert (X : forall r, advance (set (reg c) d r) (i_size i) d = r).
  { intros r. unfold advance, set, written, kept. destruct (Z.eqb_spec d 15); [lia|]. destruct (Z.eqb_spec d d); [|lia].
    destruct (Z.eqb_spec d 13); [lia|]. destruct (Z.eqb_spec d 17); [lia|]. destruct (Z.eqb_spec d 18); [lia|].
    destruct (Z.eqb_spec d (-1)); [lia|]. destruct (Z.eqb_spec d (-3)); [lia|]. destruct (Z.eqb_spec d (-2)); [lia|]. reflexivity. }
  rewrite X. unfold offset_from, pc_base, wrap. rewrite PC.
  assert (Q : (i_address i + 4) mod 2 ^ 32 mod 4 = 0).
  { rewrite <- Znumtheory.Zmod_div_mod; [|lia|reflexivity|exists (2 ^ 30); reflexivity]. rewrite Z.add_mod, AL by lia. reflexivity. }
  rewrite Q, Z.sub_0_r. rewrite Zplus_mod_idemp_l. reflexivity.
Qed.
(*@ex
Example C59_adr_partial_ex : exists i, decode_bytes Py2 [2; 160] 36 = Ok i /\ i_operands i = [R 0; LabelOp 8] /\ a_add (i_attrs i) = Some true /\
  (let c := ex_with [(15, 36)] in reg c 15 = i_address i /\ reg_after Py2 c i 0 = 48) /\
  text_of (mkfmt None []) i = Ok "a002         adr     r0, .+12        ; 0x30".
Proof. eexists. split; [vm_compute; reflexivity|]. vm_compute. repeat split; reflexivity. Qed.
@*)

(*@doc C59: refuted: the branch to itself at 34 prints 0x22 and goes to 41. @*)
Lemma C59_branch_refuted_proof : exists i c, from_bytes Py2 i /\ cpu_ok c /\ reg c 15 = i_address i /\
  text_of (mkfmt None []) i = Ok "e7fe         b       .+0             ; 0x22" /\ reg_after Py2 c i 15 = 41.
Proof.
  assert (X : exists i, decode_bytes Py2 [254; 231] 34 = Ok i /\ i_address i = 34 /\
    text_of (mkfmt None []) i = Ok "e7fe         b       .+0             ; 0x22" /\ reg_after Py2 ex_state i 15 = 41).
  { eexists. split; [vm_compute; reflexivity|]. vm_compute. repeat split; reflexivity. }
  destruct X as (i & D & A & T & E). exists i, ex_state. split; [exists [254; 231], 34; split; [bytes_tac|exact D]|].
  split; [exact ex_state_ok|]. split; [rewrite A; reflexivity|]. split; assumption.
Qed.

(*@doc C59: refuted: adr at 34, not a multiple of 4, prints 0x2e and loads 44; the form of adr
with a negative offset, at 36, prints 0x34 and loads 28. @*)
Lemma C59_adr_refuted_proof : exists i c j c', from_bytes Py2 i /\ cpu_ok c /\ reg c 15 = i_address i /\
  text_of (mkfmt None []) i = Ok "a002         adr     r0, .+12        ; 0x2e" /\ reg_after Py2 c i 0 = 44 /\
  from_bytes Py2 j /\ cpu_ok c' /\ reg c' 15 = i_address j /\
  text_of (mkfmt None []) j = Ok "f2af 000c    adr.w   r0, .+16        ; 0x34" /\ reg_after Py2 c' j 0 = 28.
Proof.
  assert (X : exists i, decode_bytes Py2 [2; 160] 34 = Ok i /\ i_address i = 34 /\
    text_of (mkfmt None []) i = Ok "a002         adr     r0, .+12        ; 0x2e" /\ reg_after Py2 ex_state i 0 = 44).
  { eexists. split; [vm_compute; reflexivity|]. vm_compute. repeat split; reflexivity. }
  assert (Y : exists i, decode_bytes Py2 [175; 242; 12; 0] 36 = Ok i /\ i_address i = 36 /\
    text_of (mkfmt None []) i = Ok "f2af 000c    adr.w   r0, .+16        ; 0x34" /\ reg_after Py2 (ex_with [(15, 36)]) i 0 = 28).
  { eexists. split; [vm_compute; reflexivity|]. vm_compute. repeat split; reflexivity. }
  destruct X as (i & D & A & T & E). destruct Y as (j & D' & A' & T' & E'). exists i, ex_state, j, (ex_with [(15, 36)]).
  split; [exists [2; 160], 34; split; [bytes_tac|exact D]|]. split; [exact ex_state_ok|]. split; [rewrite A; reflexivity|]. split; [exact T|]. split; [exact E|].
  split; [exists [175; 242; 12; 0], 36; split; [bytes_tac|exact D']|]. split; [apply ex_with_ok; bytes_tac|]. split; [rewrite A'; reflexivity|]. split; assumption.
Qed.
