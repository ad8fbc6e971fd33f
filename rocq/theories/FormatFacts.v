(** * Lemmas about formatting *)
From Coq Require Import Lia.
From Verif Require Import FormatModel BitText BitMisc BitFacts HelpFacts SpecBits SpecArm SpecIsa SpecFormat.
Import ListNotations.
Local Open Scope string_scope.
Local Open Scope list_scope.
Local Open Scope Z_scope.

(** ** Strings *)
Lemma append_assoc : forall a b c : string, ((a +++ b) +++ c = a +++ b +++ c)%string.
Proof. induction a as [|x a IH]; intros b c; cbn; [reflexivity|]. rewrite IH. reflexivity. Qed.
Lemma append_nil : forall a : string, a +++ "" = a.
Proof. induction a as [|x a IH]; cbn; [reflexivity|]. rewrite IH. reflexivity. Qed.
Lemma join_separated : forall sep l, join sep l = separated sep l.
Proof. intros sep. induction l as [|x [|y l] IH]; [reflexivity|reflexivity|]. cbn [join separated] in *. rewrite IH. reflexivity. Qed.
Lemma repeat_blanks : forall n, repeat_char " " n = blanks n.
Proof. induction n as [|n IH]; cbn; [reflexivity|]. rewrite IH. reflexivity. Qed.
Lemma pad_left : forall w s, pad_right w s = left_justified w s.
Proof. intros w s. unfold pad_right, left_justified, strlen. rewrite repeat_blanks. reflexivity. Qed.

(** ** Numbers *)
Lemma fmt_d_text : forall z, dec_text (fmt_d z) z.
Proof.
  intros z. unfold dec_text. destruct (Z.ltb_spec z 0) as [H|H]; [|apply fmt_d_canonical; exact H].
  destruct (fmt_d_neg z H) as (t & E & C). exists t. split; [exact E|exact C].
Qed.
Lemma fmt_x_text : forall z, hex_text (fmt_x z) z.
Proof.
  intros z. unfold hex_text. destruct (Z.ltb_spec z 0) as [H|H]; [|apply fmt_x_canonical; exact H].
  destruct (fmt_x_neg z H) as (t & E & C). exists t. split; [exact E|exact C].
Qed.
Lemma fmt_plus_text : forall z, sign_text (fmt_plus_d z) z.
Proof.
  intros z. unfold sign_text, fmt_plus_d. destruct (Z.ltb_spec z 0) as [H|H].
  - destruct (fmt_d_neg z H) as (t & E & C). exists t. split; [exact E|exact C].
  - exists (fmt_d z). split; [reflexivity|apply fmt_d_canonical; exact H].
Qed.

(** ** Registers *)
Lemma sixteen : forall n, 0 <= n < 16 -> In n [0; 1; 2; 3; 4; 5; 6; 7; 8; 9; 10; 11; 12; 13; 14; 15].
Proof.
  intros n H. cbn [In]. lia.
Qed.
Lemma register_name_ok : forall n, 0 <= n < 16 -> register_name n = Ok (reg_name n).
Proof.
  intros n H. pose proof (sixteen n H) as I. cbn [In] in I.
  repeat (destruct I as [<-|I]; [vm_compute; reflexivity|]). destruct I.
Qed.

(** ** Register lists *)
Lemma range_text : forall regs s e, 0 <= s <= e -> e < 16 ->
  add_reg_range regs s e = Ok (regs ++ [run_text (s, e)]).
Proof.
  intros regs s e H H'. unfold add_reg_range, run_text. destruct (Z.eqb_spec s (-1)); [lia|]. cbn [negb].
  destruct (Z.eqb_spec s e) as [->|N].
  - rewrite register_name_ok by lia. reflexivity.
  - rewrite !register_name_ok by lia. reflexivity.
Qed.
Lemma range_none : forall regs e, add_reg_range regs (-1) e = Ok regs.
Proof. reflexivity. Qed.

Definition bit_list (v n : Z) (m : nat) : list Z := map (fun k => b2z (Z.testbit v (n + Z.of_nat k))) (seq 0 m).
Lemma bit_list_S : forall v n m, bit_list v n (S m) = b2z (Z.testbit v n) :: bit_list v (n + 1) m.
Proof.
  intros v n m. unfold bit_list. cbn [seq map]. rewrite Z.add_0_r. f_equal. rewrite <- seq_shift, map_map. apply map_ext.
  intros k. f_equal. f_equal. lia.
Qed.

Lemma reglist_runs : forall v w m n regs, 0 <= n -> w = n + Z.of_nat m -> w <= 16 ->
  (exists l, reglist_loop (bit_list v n m) n regs (-1) (-1) = Ok (regs ++ map run_text l) /\ apart n w l /\
     forall k, n <= k < w -> (Z.testbit v k = true <-> exists r, In r l /\ within k r)) /\
  (forall s, 0 <= s <= n - 1 -> exists e l,
     reglist_loop (bit_list v n m) n regs s (n - 1) = Ok (regs ++ map run_text ((s, e) :: l)) /\ n - 1 <= e < w /\
     apart (e + 2) w l /\ forall k, n <= k < w -> (Z.testbit v k = true <-> k <= e \/ exists r, In r l /\ within k r)).
Proof.
  intros v w. induction m as [|m IH]; intros n regs N W W'.
  - split.
    + exists []. cbn [bit_list seq map reglist_loop]. rewrite range_none, app_nil_r. split; [reflexivity|]. split; [exact Logic.I|]. intros k K. lia.
    + intros s H. exists (n - 1), []. cbn [bit_list seq map reglist_loop]. rewrite range_text by lia.
      split; [reflexivity|]. split; [lia|]. split; [exact Logic.I|]. intros k K. lia.
  - rewrite bit_list_S. cbn [reglist_loop]. destruct (Z.testbit v n) eqn:B; cbn [b2z].
    + change (negb (1 =? 0)) with true. cbv iota. split.
      * change (-1 =? -1) with true. cbv iota.
        destruct (proj2 (IH (n + 1) regs ltac:(lia) ltac:(lia) W') n ltac:(lia)) as (e & l & E & R & A & C).
        replace (n + 1 - 1) with n in * by lia. exists ((n, e) :: l). split; [exact E|]. split; [cbn [apart]; split; [lia|split; [lia|exact A]]|].
        intros k K. cbn [In]. destruct (Z.eq_dec k n) as [->|Q].
        { split; [intros _|auto]. exists (n, e). split; [left; reflexivity|unfold within; cbn; lia]. }
        rewrite (C k ltac:(lia)). split.
        { intros [L|(r & I & X)]; [exists (n, e); split; [left; reflexivity|unfold within; cbn; lia]|exists r; split; [right; exact I|exact X]]. }
        { intros (r & [<-|I] & X); [left; unfold within in X; cbn in X; lia|right; exists r; split; assumption]. }
      * intros s H. destruct (Z.eqb_spec s (-1)); [lia|].
        destruct (proj2 (IH (n + 1) regs ltac:(lia) ltac:(lia) W') s ltac:(lia)) as (e & l & E & R & A & C).
        replace (n + 1 - 1) with n in * by lia. exists e, l. split; [exact E|]. split; [lia|]. split; [exact A|].
        intros k K. destruct (Z.eq_dec k n) as [->|Q]; [rewrite B; split; [intros _; left; lia|reflexivity]|]. apply C. lia.
    + change (negb (0 =? 0)) with false. cbv iota. split.
      * rewrite range_none. cbn [bind].
        destruct (proj1 (IH (n + 1) regs ltac:(lia) ltac:(lia) W')) as (l & E & A & C). exists l. split; [exact E|].
        split; [destruct l as [|[s e] l]; [exact A|]; cbn [apart] in *; destruct A as (A1 & A2 & A3); split; [lia|split; assumption]|].
        intros k K. destruct (Z.eq_dec k n) as [->|Q]; [rewrite B|apply C; lia]. split; [discriminate|].
        intros (r & I & X). exfalso. clear - A I X. revert A I.
        assert (G : forall l lo, apart lo w l -> In r l -> lo <= fst r).
        { induction l0 as [|[s e] l0 IH]; intros lo A I; [destruct I|]. cbn [apart] in A. destruct A as (A1 & A2 & A3).
          destruct I as [<-|I]; [cbn; lia|]. pose proof (IH _ A3 I). lia. }
        intros A I. pose proof (G _ _ A I). unfold within in X. lia.
      * intros s H. rewrite range_text by lia. cbn [bind].
        destruct (proj1 (IH (n + 1) (regs ++ [run_text (s, n - 1)]) ltac:(lia) ltac:(lia) W')) as (l & E & A & C).
        exists (n - 1), l. split; [rewrite E, <- app_assoc; reflexivity|]. split; [lia|]. replace (n - 1 + 2) with (n + 1) by lia. split; [exact A|].
        intros k K. destruct (Z.eq_dec k n) as [->|Q].
        { rewrite B. split; [discriminate|]. intros [L|(r & I & X)]; [lia|]. exfalso. clear - A I X. revert A I.
          assert (G : forall l lo, apart lo w l -> In r l -> lo <= fst r).
          { induction l0 as [|[s e] l0 IH]; intros lo A I; [destruct I|]. cbn [apart] in A. destruct A as (A1 & A2 & A3).
            destruct I as [<-|I]; [cbn; lia|]. pose proof (IH _ A3 I). lia. }
          intros A I. pose proof (G _ _ A I). unfold within in X. lia. }
        rewrite (C k ltac:(lia)). split; [right; assumption|intros [L|X]; [lia|exact X]].
Qed.

Lemma iter_bits : forall w v, 0 <= w -> 0 <= v < 2 ^ w -> bs_iter (bits w v) = bit_list v 0 (Z.to_nat w).
Proof.
  intros w v W V. rewrite iter_ok. unfold bit_list, py_range, bits, bit. cbn [bw bv]. rewrite Z.mod_small by lia. rewrite map_map. apply map_ext.
  intros k. rewrite Z.add_0_l. reflexivity.
Qed.
Lemma reglist_ok : forall w v, 0 <= w <= 16 -> 0 <= v < 2 ^ w ->
  exists t, format_reglist (bits w v) = Ok t /\ reglist_text w v t.
Proof.
  intros w v W V. unfold format_reglist. rewrite iter_bits by lia.
  destruct (proj1 (reglist_runs v w (Z.to_nat w) 0 [] ltac:(lia) ltac:(lia) ltac:(lia))) as (l & E & A & C).
  rewrite E. cbn [bind]. rewrite app_nil_l. eexists. split; [reflexivity|]. exists l. rewrite join_separated. split; [reflexivity|]. split; assumption.
Qed.

(** ** Special registers *)
Lemma special_plain : forall y, 0 <= y < 256 -> format_special (bits 8 y) None = Ok (None, special_name y).
Proof.
  apply (HelpFacts.sweep _ (fun y => format_special (bits 8 y) None) (fun y => Ok (None, special_name y))). vm_compute. reflexivity.
Qed.
Lemma special_masked : forall k y, 0 <= k < 4 -> 0 <= y < 256 ->
  format_special (bits 8 y) (Some (bits 2 k)) =
  Ok (Some (bits 2 (mask_after y k)), if y <? 4 then special_name y +++ printed_suffix k else special_name y).
Proof.
  intros k y K. revert y. assert (I : In k [0; 1; 2; 3]) by (cbn [In]; lia). cbn [In] in I.
  repeat (destruct I as [<-|I];
   [ match goal with |- forall y, 0 <= y < 256 -> format_special _ (Some (bits 2 ?k)) = _ =>
       apply (HelpFacts.sweep _ (fun y => format_special (bits 8 y) (Some (bits 2 k)))
         (fun y => Ok (Some (bits 2 (mask_after y k)), if y <? 4 then special_name y +++ printed_suffix k else special_name y))) end;
     vm_compute; reflexivity|]).
  destruct I.
Qed.
Lemma mask_after_range : forall y k, 0 <= k < 4 -> 0 <= mask_after y k < 4.
Proof. intros y k K. unfold mask_after. destruct ((y <? 4) && (2 <=? k))%bool; lia. Qed.
Lemma mask_after_twice : forall y k, 0 <= k < 4 -> mask_after y (mask_after y k) = mask_after y k.
Proof. intros y k K. unfold mask_after. destruct (y <? 4) eqn:A; [|reflexivity]. destruct (2 <=? k) eqn:B; cbn [andb]; [|rewrite B; reflexivity].
  assert ((2 <=? 3 - k) = false) as -> by lia. reflexivity. Qed.
Lemma printed_after : forall k y, 0 <= k < 4 -> y <? 4 = true -> printed_suffix (mask_after y k) = printed_suffix k.
Proof.
  intros k y K L. unfold mask_after. rewrite L. assert (I : In k [0; 1; 2; 3]) by (cbn [In]; lia). cbn [In] in I.
  repeat (destruct I as [<-|I]; [reflexivity|]). destruct I.
Qed.

(** ** Operands that format without an exception *)
Fixpoint good (a : attrs) (o : operand) : Prop :=
  match o with
  | RegOp n _ => 0 <= n < 16
  | ReglistOp b => exists v, b = bits 16 v /\ 0 <= v < 65536
  | ImmRefOp => exists v, a_imm32 a = Some (bits 32 v) /\ 0 <= v < 2 ^ 32
  | MemOp l => (fix all l := match l with [] => True | x :: l' => (good a x /\ odd_mask x = false) /\ all l' end) l
  | SpecialOp y m => exists s, y = bits 8 s /\ 0 <= s < 256 /\
      match m with Some b => exists k, b = bits 2 k /\ 0 <= k < 4 | None => True end
  | _ => True
  end.
Lemma good_mem : forall a l, good a (MemOp l) <-> Forall (fun x => good a x /\ odd_mask x = false) l.
Proof.
  intros a l. cbn [good]. induction l as [|x l IH]; [split; [constructor|intros; exact Logic.I]|].
  split; [intros [H H']; constructor; [exact H|apply IH; exact H']|].
  intros H. inversion H; subst. split; [assumption|apply IH; assumption].
Qed.
Lemma operand_cases : forall P : operand -> Prop, (forall l, Forall P l -> P (MemOp l)) ->
  (forall o, (forall l, o <> MemOp l) -> P o) -> forall o, P o.
Proof.
  intros P HM HO. fix IH 1. intros [n b|b|v b| |v|t n|n|l|p q|y m].
  8: { apply HM. induction l as [|x l IHl]; constructor; [apply IH|exact IHl]. }
  all: apply HO; discriminate.
Qed.
Lemma number_ok : forall v, number_shown v ("#" +++ fmt_d v) (if 9 <? v then ["0x" +++ fmt_x v] else []).
Proof.
  intros v. unfold number_shown. split; [exists (fmt_d v); split; [reflexivity|apply fmt_d_text]|].
  destruct (9 <? v); [exists (fmt_x v); split; [reflexivity|apply fmt_x_text]|reflexivity].
Qed.

(** Formatting an operand: text and comments, and what becomes of the object. *)
Definition formats (i : insn) (o o' : operand) (s : option string) (c : list string) : Prop :=
  forall i2 cs, i_address i2 = i_address i -> i_attrs i2 = i_attrs i ->
    format_operand (mkfmt (Some i2) cs) o = Ok (o', mkfmt (Some i2) (cs ++ c), s).
Definition formats_all (i : insn) (l l' : list operand) (ss c : list string) : Prop :=
  forall i2 cs, i_address i2 = i_address i -> i_attrs i2 = i_attrs i ->
    format_operands (mkfmt (Some i2) cs) l = Ok (l', mkfmt (Some i2) (cs ++ c), ss).
Lemma mem_operands : forall f l, format_operand f (MemOp l) =
  let* '(l, f', ss) := format_operands f l in Ok (MemOp l, f', Some ("[" ++ join ", " ss ++ "]")%string).
Proof.
  intros f l. cbn [format_operand]. match goal with |- bind ?a _ = bind ?b _ => assert (a = b) as -> end; [|reflexivity].
  revert f. induction l as [|x l IH]; intros f; [reflexivity|]. cbn [format_operands]. destruct (format_operand f x) as [[[x' f'] s]|e]; cbn [bind]; [|reflexivity].
  rewrite IH. reflexivity.
Qed.

Definition fine (i : insn) (o : operand) : Prop := exists o' s c,
  formats i o o' s c /\ formats i o' o' s c /\ (odd_mask o = false -> shows (i_address i) (imm_value i) o s c).
Lemma fine_list : forall i l, Forall (fine i) l -> exists l' ss c,
  formats_all i l l' ss c /\ formats_all i l' l' ss c /\
  (existsb odd_mask l = false -> shows_all (i_address i) (imm_value i) l ss c).
Proof.
  intros i l F. induction F as [|o l (o' & s & c & F1 & F2 & S) F (l' & ss & c' & G1 & G2 & T)].
  - exists [], [], []. split; [|split]; [intros i2 cs A B; cbn; rewrite app_nil_r; reflexivity| |intros _; constructor].
    intros i2 cs A B. cbn. rewrite app_nil_r. reflexivity.
  - exists (o' :: l'), (match s with Some t => t :: ss | None => ss end), (c ++ c'). split; [|split].
    + intros i2 cs A B. cbn [format_operands]. rewrite (F1 i2 cs A B). cbn [bind]. rewrite (G1 i2 _ A B). cbn [bind]. rewrite app_assoc. reflexivity.
    + intros i2 cs A B. cbn [format_operands]. rewrite (F2 i2 cs A B). cbn [bind]. rewrite (G2 i2 _ A B). cbn [bind]. rewrite app_assoc. reflexivity.
    + cbn [existsb]. intros E. apply Bool.orb_false_iff in E. destruct E as [E E'].
      destruct s as [t|]; [apply shows_cons|apply shows_skip]; auto.
Qed.

Lemma good_fine : forall i o, good (i_attrs i) o -> fine i o.
Proof.
  intros i. apply (operand_cases (fun o => good (i_attrs i) o -> fine i o)).
  - intros l H G. rewrite good_mem in G.
    assert (F : Forall (fine i) l) by (rewrite Forall_forall in *; intros x I; apply H; [exact I|apply (G x I)]).
    destruct (fine_list i l F) as (l' & ss & c & F1 & F2 & S).
    exists (MemOp l'), (Some ("[" +++ separated ", " ss +++ "]")), c. split; [|split].
    + intros i2 cs A B. rewrite mem_operands, (F1 i2 cs A B). cbn [bind]. rewrite join_separated. reflexivity.
    + intros i2 cs A B. rewrite mem_operands, (F2 i2 cs A B). cbn [bind]. rewrite join_separated. reflexivity.
    + intros _. constructor. apply S. clear - G. induction G as [|x l [_ G] _ IH]; [reflexivity|]. cbn [existsb]. rewrite G. exact IH.
  - intros o NM G. destruct o as [n b|b|v b| |v|t n|n|l|p q|y m]; cbn [good] in G.
    + exists (RegOp n b), (Some (if b then reg_name n +++ "!" else reg_name n)), [].
      assert (X : formats i (RegOp n b) (RegOp n b) (Some (if b then reg_name n +++ "!" else reg_name n)) []).
      { intros i2 cs A B. cbn [format_operand]. unfold format_register. rewrite register_name_ok by lia. cbn [bind]. rewrite app_nil_r. reflexivity. }
      split; [exact X|]. split; [exact X|]. intros _. destruct b; constructor; exact G.
    + destruct G as (v & -> & V). destruct (reglist_ok 16 v ltac:(lia) V) as (t & E & T). exists (ReglistOp (bits 16 v)), (Some t), [].
      assert (X : formats i (ReglistOp (bits 16 v)) (ReglistOp (bits 16 v)) (Some t) []).
      { intros i2 cs A B. cbn [format_operand]. rewrite E. cbn [bind]. rewrite app_nil_r. reflexivity. }
      split; [exact X|]. split; [exact X|]. intros _. constructor; assumption.
    + destruct ((v =? 0) && b)%bool eqn:Z0.
      * exists (ImmOp v b), None, [].
        assert (X : formats i (ImmOp v b) (ImmOp v b) None []).
        { intros i2 cs A B. cbn [format_operand]. unfold format_immediate. rewrite Z0, app_nil_r. reflexivity. }
        split; [exact X|]. split; [exact X|]. intros _. apply Bool.andb_true_iff in Z0. destruct Z0 as [Z0 ->]. apply Z.eqb_eq in Z0. subst v. constructor.
      * exists (ImmOp v b), (Some ("#" +++ fmt_d v)), (if 9 <? v then ["0x" +++ fmt_x v] else []).
        assert (X : formats i (ImmOp v b) (ImmOp v b) (Some ("#" +++ fmt_d v)) (if 9 <? v then ["0x" +++ fmt_x v] else [])).
        { intros i2 cs A B. cbn [format_operand]. unfold format_immediate. rewrite Z0. destruct (9 <? v); [reflexivity|]. rewrite app_nil_r. reflexivity. }
        split; [exact X|]. split; [exact X|]. intros _. destruct b; [|constructor; apply number_ok].
        constructor; [|apply number_ok]. intros ->. discriminate Z0.
    + destruct G as (v & G & V). exists ImmRefOp, (Some ("#" +++ fmt_d v)), (if 9 <? v then ["0x" +++ fmt_x v] else []).
      assert (X : formats i ImmRefOp ImmRefOp (Some ("#" +++ fmt_d v)) (if 9 <? v then ["0x" +++ fmt_x v] else [])).
      { intros i2 cs A B. cbn [format_operand f_instruction]. rewrite B, G. unfold format_immediate_bits.
        assert (Q : bs_gt (bits 32 v) (VInt 9) = Ok (bits 32 v, 9 <? v)).
        { unfold bs_gt, bs_le, bs_eq, bs_lt, bits. change (9 <? 0) with false. cbv iota. cbn [bind bv]. rewrite Z.mod_small by exact V.
          destruct (Z.eqb_spec v 9) as [E|E]; destruct (Z.ltb_spec v 9) as [L|L]; destruct (Z.ltb_spec 9 v) as [L'|L']; cbn [negb bind]; try reflexivity; lia. }
        rewrite Q. cbn [bind]. unfold bits. cbn [bv]. rewrite Z.mod_small by exact V. destruct (9 <? v); [reflexivity|]. rewrite app_nil_r. reflexivity. }
      split; [exact X|]. split; [exact X|]. intros _. apply (shows_imm32 _ _ v); [|apply number_ok]. unfold imm_value. rewrite G. unfold bits. cbn [bv].
      rewrite Z.mod_small by exact V. reflexivity.
    + exists (LabelOp v), (Some ("." +++ fmt_plus_d (v + 4))), ["0x" +++ fmt_x (i_address i + 4 + v)].
      assert (X : formats i (LabelOp v) (LabelOp v) (Some ("." +++ fmt_plus_d (v + 4))) ["0x" +++ fmt_x (i_address i + 4 + v)]).
      { intros i2 cs A B. cbn [format_operand]. unfold format_label. cbn [f_instruction bind]. rewrite A. reflexivity. }
      split; [exact X|]. split; [exact X|]. intros _. constructor; [apply fmt_plus_text|apply fmt_x_text].
    + exists (ShiftRotateOp t n), (if sr_eqb t SR_None then None else Some (shift_name t +++ " #" +++ fmt_d n)), [].
      assert (X : formats i (ShiftRotateOp t n) (ShiftRotateOp t n) (if sr_eqb t SR_None then None else Some (shift_name t +++ " #" +++ fmt_d n)) []).
      { intros i2 cs A B. rewrite app_nil_r. destruct t; reflexivity. }
      split; [exact X|]. split; [exact X|]. intros _. destruct t; [apply shows_no_shift|..];
      (apply (shows_shift _ _ _ _ (fmt_d n)); [discriminate|apply fmt_d_text]).
    + exists (BarrierOp n), (Some (format_barrier n)), [].
      assert (X : formats i (BarrierOp n) (BarrierOp n) (Some (format_barrier n)) []).
      { intros i2 cs A B. rewrite app_nil_r. reflexivity. }
      split; [exact X|]. split; [exact X|]. intros _. unfold format_barrier. destruct (Z.eqb_spec n 15) as [->|N]; [constructor|].
      apply (shows_barrier _ _ _ (fmt_d n)); [exact N|apply fmt_d_text].
    + exfalso. apply (NM l). reflexivity.
    + exists (CpsOp p q), (Some (format_cps p q)), [].
      assert (X : formats i (CpsOp p q) (CpsOp p q) (Some (format_cps p q)) []).
      { intros i2 cs A B. rewrite app_nil_r. reflexivity. }
      split; [exact X|]. split; [exact X|]. intros _. exact (shows_cps _ _ p q).
    + destruct G as (s & -> & S & M). destruct m as [b|].
      * destruct M as (k & -> & K).
        exists (SpecialOp (bits 8 s) (Some (bits 2 (mask_after s k)))), (Some (if s <? 4 then special_name s +++ printed_suffix k else special_name s)), [].
        split; [|split].
        -- intros i2 cs A B. cbn [format_operand]. rewrite special_masked by assumption. cbn [bind]. rewrite app_nil_r. reflexivity.
        -- intros i2 cs A B. cbn [format_operand]. rewrite special_masked by (assumption || apply mask_after_range; assumption). cbn [bind].
           rewrite mask_after_twice, app_nil_r by assumption. destruct (s <? 4) eqn:L; [rewrite printed_after by assumption|]; reflexivity.
        -- cbn [odd_mask]. unfold bits. cbn [bv]. change (2 ^ 8) with 256. change (2 ^ 2) with 4. rewrite !Z.mod_small by lia. intros O.
           destruct (s <? 4) eqn:L.
           ++ cbn [andb] in O. assert (printed_suffix k = mask_suffix k) as ->.
              { unfold printed_suffix, mask_suffix. destruct (k =? 1) eqn:K1; [reflexivity|]. destruct (k =? 2) eqn:K2; [lia|].
                destruct (k =? 3) eqn:K3; [lia|]. reflexivity. }
              pose proof (shows_suffixed (i_address i) (imm_value i) s k ltac:(lia) K) as Q. unfold bits in Q. change (2 ^ 8) with 256 in Q.
              change (2 ^ 2) with 4 in Q. rewrite !Z.mod_small in Q by lia. exact Q.
           ++ pose proof (shows_masked (i_address i) (imm_value i) s k ltac:(lia) K) as Q. unfold bits in Q. change (2 ^ 8) with 256 in Q.
              change (2 ^ 2) with 4 in Q. rewrite !Z.mod_small in Q by lia. exact Q.
      * exists (SpecialOp (bits 8 s) None), (Some (special_name s)), [].
        assert (X : formats i (SpecialOp (bits 8 s) None) (SpecialOp (bits 8 s) None) (Some (special_name s)) []).
        { intros i2 cs A B. cbn [format_operand]. rewrite special_plain by assumption. cbn [bind]. rewrite app_nil_r. reflexivity. }
        split; [exact X|]. split; [exact X|]. intros _. constructor. exact S.
Qed.
