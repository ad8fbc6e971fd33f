(** * Reading back what is printed: lemmas for C95 *)
From Coq Require Import Lia ZifyBool.
From Verif Require Import InsnModel TableModel ExecModel SpecArm SpecDecoder SpecCpu SpecExec IsaThms ExecFacts ExecShape ExecRows ExecArithThms ExecRefThms FormatModel FormatFacts FormatThms BitText HelpFacts SpecBits SpecIsa SpecWhole SpecFormat SpecAsm.
Import ListNotations.
Local Open Scope string_scope.
Local Open Scope list_scope.
Local Open Scope Z_scope.

(** ** Strings *)
Fixpoint free (bad : string) (s : string) : bool :=
  match s with
  | EmptyString => true
  | String a s' => (negb (existsb (Ascii.eqb a) (chars bad)) && free bad s')%bool
  end.
Lemma free_app : forall bad a b, free bad (a +++ b) = (free bad a && free bad b)%bool.
Proof. intros bad a b. induction a as [|c a IH]; cbn [append free]; [reflexivity|]. rewrite IH, Bool.andb_assoc. reflexivity. Qed.
Fixpoint balance (d : Z) (s : string) : option Z :=
  match s with
  | EmptyString => Some d
  | String a s' => if (Ascii.eqb a "," && (d =? 0))%bool then None else balance (d + nesting a) s'
  end.
Definition put_before (t : string) (l : list string) : list string := match l with p :: l' => (t +++ p) :: l' | [] => [] end.
Lemma balance_pieces : forall t d d' rest, balance d t = Some d' -> pieces d (t +++ rest) = put_before t (pieces d' rest).
Proof.
  induction t as [|a t IH]; intros d d' rest H; cbn [balance append] in *.
  - injection H as <-. destruct (pieces d rest); reflexivity.
  - cbn [pieces]. destruct (Ascii.eqb a "," && (d =? 0))%bool; [discriminate H|]. rewrite (IH _ _ rest H). destruct (pieces d' rest); reflexivity.
Qed.
Lemma balance_app : forall a b d, balance d (a +++ b) = match balance d a with Some d' => balance d' b | None => None end.
Proof.
  induction a as [|c a IH]; intros b d; cbn [append balance]; [reflexivity|]. destruct (Ascii.eqb c "," && (d =? 0))%bool; [reflexivity|]. apply IH.
Qed.
Lemma balance_free : forall s d, free ",[]{}" s = true -> balance d s = Some d.
Proof.
  induction s as [|a s IH]; intros d F; [reflexivity|]. cbn [free chars list_ascii_of_string existsb] in F. apply Bool.andb_true_iff in F. destruct F as [F F'].
  cbn [balance]. unfold nesting. rewrite !Bool.negb_true_iff, !Bool.orb_false_iff in F. destruct F as (-> & -> & -> & -> & -> & _).
  cbn [andb orb]. rewrite Z.add_0_r. apply IH, F'.
Qed.
Lemma balance_free_inside : forall s d, 0 < d -> free "[]{}" s = true -> balance d s = Some d.
Proof.
  induction s as [|a s IH]; intros d P F; [reflexivity|]. cbn [free chars list_ascii_of_string existsb] in F. apply Bool.andb_true_iff in F. destruct F as [F F'].
  cbn [balance]. unfold nesting. rewrite !Bool.negb_true_iff, !Bool.orb_false_iff in F. destruct F as (-> & -> & -> & -> & _).
  cbn [orb]. replace (d =? 0) with false by lia. rewrite Bool.andb_false_r, Z.add_0_r. apply IH; assumption.
Qed.
Lemma before_app : forall c a b, free (String c "") a = true -> before c (a +++ b) = a +++ before c b.
Proof.
  intros c a b. induction a as [|x a IH]; intros F; [reflexivity|]. cbn [free chars list_ascii_of_string existsb] in F. apply Bool.andb_true_iff in F.
  destruct F as [F F']. rewrite Bool.orb_false_r, Bool.negb_true_iff in F. cbn [append before]. rewrite F, IH by exact F'. reflexivity.
Qed.
Lemma without_end_app : forall a b, without_end b <> "" -> without_end (a +++ b) = a +++ without_end b.
Proof.
  intros a b N. induction a as [|x a IH]; [reflexivity|]. cbn [append without_end]. rewrite IH. destruct (a +++ without_end b) eqn:E; [|reflexivity].
  exfalso. destruct a; [exact (N E)|discriminate E].
Qed.
Lemma without_end_blanks : forall n, without_end (blanks n) = "".
Proof. induction n as [|n IH]; [reflexivity|]. cbn [blanks append without_end]. rewrite IH. reflexivity. Qed.
Lemma without_end_pad : forall s n, without_end (s +++ blanks n) = without_end s.
Proof.
  intros s n. induction s as [|a s IH]; [apply without_end_blanks|]. cbn [append without_end]. rewrite IH. reflexivity.
Qed.
Lemma without_start_pad : forall n s, without_start (blanks n +++ s) = without_start s.
Proof. induction n as [|n IH]; intros s; [reflexivity|]. cbn [blanks append without_start]. apply IH. Qed.
Lemma skipped_app : forall a b n, String.length a = n -> skipped n (a +++ b) = b.
Proof. induction a as [|x a IH]; intros b n <-; [destruct b; reflexivity|]. cbn [String.length append skipped]. apply IH. reflexivity. Qed.

(** A text without blanks around it. *)
Definition tight (s : string) : Prop := s <> "" /\ without_end s = s /\ without_start s = s.
Lemma tight_ends : forall a b, a <> "" -> without_start a = a -> without_end b = b -> b <> "" -> tight (a +++ b).
Proof.
  intros a b NA SA EB NB. split; [destruct a; [contradiction|discriminate]|]. split; [rewrite without_end_app by (rewrite EB; exact NB); rewrite EB; reflexivity|].
  destruct a as [|x a]; [contradiction|]. cbn [append]. assert (X : x <> " "%char).
  { intros ->. cbn [without_start] in SA. assert (L : forall s, (String.length (without_start s) <= String.length s)%nat).
    { clear. induction s as [|c s IH]; [apply Nat.le_refl|]. cbn [without_start]. destruct c as [[] [] [] [] [] [] [] []]; cbn [String.length]; try apply Nat.le_refl. lia. }
    specialize (L a). rewrite SA in L. cbn [String.length] in L. lia. }
  cbn [without_start]. destruct x as [[] [] [] [] [] [] [] []]; try reflexivity. exfalso. apply X. reflexivity.
Qed.

(** ** Numbers *)
Lemma digit_free : forall b bad c, is_base_digit b c -> b <= 10 -> forallb (fun a => (Z.of_nat (nat_of_ascii a) <? 48) || (57 <? Z.of_nat (nat_of_ascii a)))%bool (chars bad) = true -> existsb (Ascii.eqb c) (chars bad) = false.
Proof.
  intros b bad c D B. unfold is_base_digit, char_digit in D. induction (chars bad) as [|a l IH]; intros H; [reflexivity|]. cbn [forallb existsb] in *.
  apply Bool.andb_true_iff in H. destruct H as [H H']. rewrite (IH H'), Bool.orb_false_r. destruct (Ascii.eqb_spec c a) as [->|]; [|reflexivity].
  exfalso. destruct (Z.of_nat (nat_of_ascii a) <? 58) eqn:?; [lia|]. destruct (Z.of_nat (nat_of_ascii a) <? 97) eqn:?; lia.
Qed.
Lemma digits_free : forall b bad s z, denotes b s z -> b <= 10 -> forallb (fun a => (Z.of_nat (nat_of_ascii a) <? 48) || (57 <? Z.of_nat (nat_of_ascii a)))%bool (chars bad) = true -> free bad s = true.
Proof.
  intros b bad s z [F _] B H. induction s as [|c s IH]; [reflexivity|]. cbn in F. inversion F as [|? ? D F']; subst. cbn [free].
  rewrite (digit_free b bad c D B H). exact (IH F').
Qed.
Lemma digits_end : forall b s z, canonical b s z -> b <= 10 -> s <> "" /\ without_end s = s.
Proof.
  intros b s z [D [C0 C1]] B. assert (N : s <> "").
  { destruct (Z.eq_dec z 0) as [->|N]; [rewrite (C0 eq_refl); discriminate|]. destruct (C1 N) as (c & t & -> & _). discriminate. }
  split; [exact N|]. pose proof (digits_free b " " s z D B eq_refl) as F. clear - F.
  induction s as [|a s IH]; [reflexivity|]. cbn [free chars list_ascii_of_string existsb] in F. apply Bool.andb_true_iff in F. destruct F as [F F'].
  rewrite Bool.orb_false_r, Bool.negb_true_iff in F. cbn [without_end]. rewrite (IH F'), F. destruct s; reflexivity.
Qed.
Lemma read_digits : forall s z, canonical 10 s z -> be_number 10 (map char_digit (chars s)) = z /\ read_number s = z.
Proof.
  intros s z C. destruct C as [[F D] _]. split; [exact D|]. unfold read_number.
  destruct s as [|c s]; [exact D|]. cbn in F. inversion F as [|? ? X _]; subst.
  assert (A : c <> "-"%char /\ c <> "+"%char) by (split; intros ->; unfold is_base_digit in X; [change (char_digit "-") with (-3) in X|change (char_digit "+") with (-5) in X]; lia).
  destruct c as [[] [] [] [] [] [] [] []]; try reflexivity; exfalso; tauto.
Qed.
Lemma read_dec : forall s z, dec_text s z -> read_number s = z /\ free ",[]{};#" s = true /\ s <> "" /\ without_end s = s.
Proof.
  intros s z D. unfold dec_text in D. destruct (z <? 0).
  - destruct D as (t & -> & C). destruct (digits_end _ _ _ C ltac:(lia)) as [N E]. split.
    + change (read_number ("-" +++ t)) with (- be_number 10 (map char_digit (chars t))). rewrite (proj1 (read_digits t _ C)). lia.
    + split; [cbn [append free]; rewrite (digits_free 10 ",[]{};#" t _ (proj1 C)) by (lia || reflexivity); reflexivity|]. split; [discriminate|].
      rewrite without_end_app by (rewrite E; exact N). rewrite E. reflexivity.
  - split; [exact (proj2 (read_digits s z D))|]. split; [apply (digits_free 10 ",[]{};#" s _ (proj1 D)); [lia|reflexivity]|]. apply (digits_end 10 s z D). lia.
Qed.
Lemma read_sign : forall s z, sign_text s z -> read_number s = z /\ free ",[]{};#" s = true /\ s <> "" /\ without_end s = s.
Proof.
  intros s z D. unfold sign_text in D. destruct (z <? 0); destruct D as (t & -> & C); destruct (digits_end _ _ _ C ltac:(lia)) as [N E]; split.
  - change (read_number ("-" +++ t)) with (- be_number 10 (map char_digit (chars t))). rewrite (proj1 (read_digits t _ C)). lia.
  - split; [cbn [append free]; rewrite (digits_free 10 ",[]{};#" t _ (proj1 C)) by (lia || reflexivity); reflexivity|]. split; [discriminate|].
    rewrite without_end_app by (rewrite E; exact N). rewrite E. reflexivity.
  - change (read_number ("+" +++ t)) with (be_number 10 (map char_digit (chars t))). rewrite (proj1 (read_digits t _ C)). lia.
  - split; [cbn [append free]; rewrite (digits_free 10 ",[]{};#" t _ (proj1 C)) by (lia || reflexivity); reflexivity|]. split; [discriminate|].
    rewrite without_end_app by (rewrite E; exact N). rewrite E. reflexivity.
Qed.

(** ** Operands *)
(** An atom can stand inside the brackets of a memory operand. *)
Definition atom_text (s : string) (t : token) : Prop :=
  read_atom s = Some t /\ read_operand s = Some t /\ free ",[]{};" s = true /\ tight s.
Definition operand_text (s : string) (t : token) : Prop :=
  read_operand s = Some t /\ balance 0 s = Some 0 /\ free ";" s = true /\ tight s.
Lemma free_less : forall bad bad' s, (forall c, In c (chars bad') -> In c (chars bad)) -> free bad s = true -> free bad' s = true.
Proof.
  intros bad bad' s I. induction s as [|a s IH]; intros F; [reflexivity|]. cbn [free] in *. apply Bool.andb_true_iff in F. destruct F as [F F'].
  rewrite (IH F'), Bool.andb_true_r. rewrite Bool.negb_true_iff in *. destruct (existsb (Ascii.eqb a) (chars bad')) eqn:E; [|reflexivity].
  exfalso. apply existsb_exists in E. destruct E as (x & X & E). apply Bool.not_true_iff_false in F. apply F. apply existsb_exists. exists x. split; [apply I, X|exact E].
Qed.
Ltac in_list := let c := fresh in let H := fresh in intros c H; cbn in H; cbn; tauto.
Lemma atom_operand : forall s t, atom_text s t -> operand_text s t.
Proof.
  intros s t (R & R' & F & T). split; [exact R'|]. split; [apply balance_free; apply (free_less ",[]{};" ",[]{}" s ltac:(in_list) F)|].
  split; [apply (free_less ",[]{};" ";" s ltac:(in_list) F)|exact T].
Qed.
Lemma all_some : forall {A} (l : list A), all (map Some l) = Some l.
Proof. intros A l. induction l as [|x l IH]; [reflexivity|]. cbn [map all]. rewrite IH. reflexivity. Qed.
Lemma pieces_all : forall ss ts, Forall2 (fun s (_ : token) => balance 0 s = Some 0 /\ tight s) ss ts -> ss <> [] ->
  map without_start (pieces 0 (separated ", " ss)) = ss.
Proof.
  intros ss ts F. induction F as [|s t ss ts (B & _ & _ & S) F IH]; intros N; [contradiction|]. destruct ss as [|s' ss].
  - cbn [separated]. rewrite <- (append_nil s) at 1. rewrite (balance_pieces _ _ _ "" B). cbn [pieces put_before map]. rewrite append_nil, S. reflexivity.
  - change (separated ", " (s :: s' :: ss)) with (s +++ ", " +++ separated ", " (s' :: ss)). rewrite (balance_pieces _ _ _ _ B).
    change (", " +++ ?x) with (String "," (String " " x)). cbn [pieces]. change (Ascii.eqb "," "," && (0 =? 0))%bool with true. cbv iota.
    change (Ascii.eqb " " "," && (0 =? 0))%bool with false. cbv iota. change (0 + nesting " ") with 0. specialize (IH ltac:(discriminate)).
    cbn [put_before]. destruct (pieces 0 (separated ", " (s' :: ss))) as [|p l]; [discriminate IH|]. cbn [map] in *. rewrite append_nil, S.
    change (without_start (String " " p)) with (without_start p). rewrite IH. reflexivity.
Qed.
Lemma separated_tight : forall ss, Forall tight ss -> ss <> [] -> tight (separated ", " ss).
Proof.
  intros ss F. induction F as [|s ss T F IH]; intros N; [contradiction|]. destruct ss as [|s' ss]; [exact T|].
  change (separated ", " (s :: s' :: ss)) with (s +++ ", " +++ separated ", " (s' :: ss)). specialize (IH ltac:(discriminate)). destruct IH as (N' & E & _). destruct T as (N1 & _ & S1).
  apply tight_ends; try assumption; [|discriminate]. rewrite without_end_app by (rewrite E; exact N'). rewrite E. reflexivity.
Qed.
Lemma separated_free : forall bad ss, free bad ", " = true -> Forall (fun s => free bad s = true) ss -> free bad (separated ", " ss) = true.
Proof.
  intros bad ss B F. induction F as [|s ss T F IH]; [reflexivity|]. destruct ss as [|s' ss]; [exact T|].
  change (separated ", " (s :: s' :: ss)) with (s +++ ", " +++ separated ", " (s' :: ss)). rewrite !free_app, T, B, IH. reflexivity.
Qed.
Lemma read_all : forall f (P : string -> token -> Prop) ss ts, (forall s t, P s t -> f s = Some t /\ balance 0 s = Some 0 /\ tight s) -> Forall2 P ss ts ->
  read_list f (separated ", " ss) = Some ts.
Proof.
  intros f P ss ts H F. unfold read_list. destruct ss as [|s ss]; [inversion F; subst; reflexivity|].
  assert (T : tight (separated ", " (s :: ss))).
  { apply separated_tight; [|discriminate]. clear - H F. induction F as [|? ? ? ? X F IH]; constructor; [exact (proj2 (proj2 (H _ _ X)))|exact IH]. }
  destruct (String.eqb_spec (separated ", " (s :: ss)) "") as [E|_]; [destruct T as [T _]; contradiction|].
  rewrite (pieces_all (s :: ss) ts); [| |discriminate].
  - clear T. assert (M : map f (s :: ss) = map Some ts); [|rewrite M; apply all_some].
    induction F as [|? ? ? ? X F IH]; [reflexivity|]. cbn [map]. rewrite IH, (proj1 (H _ _ X)). reflexivity.
  - clear T. induction F as [|? ? ? ? X F IH]; constructor; [exact (proj2 (H _ _ X))|exact IH].
Qed.

Definition is_atom (o : operand) : bool := match o with RegOp _ _ | ImmOp _ _ | ShiftRotateOp _ _ => true | _ => false end.
Definition printable (o : operand) : bool :=
  match o with
  | MemOp l => forallb is_atom l
  | CpsOp p q => p || q
  | SpecialOp y _ => special (bv y)
  | _ => true
  end.
Ltac now_text := split; [vm_compute; reflexivity|]; split; [vm_compute; reflexivity|]; split; [vm_compute; reflexivity|]; split; [discriminate|]; split; vm_compute; reflexivity.
Lemma reg_text : forall n b, 0 <= n < 16 -> atom_text (if b : bool then reg_name n +++ "!" else reg_name n) (tReg n b).
Proof.
  intros n b N. assert (I : In n [0; 1; 2; 3; 4; 5; 6; 7; 8; 9; 10; 11; 12; 13; 14; 15]) by (cbn [In]; lia). clear N. cbn [In] in I.
  repeat (destruct I as [<-|I]; [destruct b; now_text|]). destruct I.
Qed.
Lemma special_text : forall y k, special y = true -> 0 <= y < 256 -> 0 <= k < 4 ->
  operand_text (if y <? 4 then special_name y +++ printed_suffix k else special_name y) (tSpecial y) /\ operand_text (special_name y) (tSpecial y).
Proof.
  intros y k S Y K. assert (I : In y [0; 1; 2; 3; 5; 6; 7; 8; 9; 16; 17; 18; 19; 20]).
  { assert (X : forall y, 0 <= y < 256 -> (negb (special y) || existsb (Z.eqb y) [0; 1; 2; 3; 5; 6; 7; 8; 9; 16; 17; 18; 19; 20])%bool = true).
    { intros z Z. apply (sweep _ (fun y => (negb (special y) || existsb (Z.eqb y) [0; 1; 2; 3; 5; 6; 7; 8; 9; 16; 17; 18; 19; 20])%bool) (fun _ => true) 256); [vm_compute; reflexivity|exact Z]. }
    specialize (X y Y). rewrite S in X. cbn [negb orb] in X. apply existsb_exists in X. destruct X as (x & X & E). apply Z.eqb_eq in E. subst x. exact X. }
  assert (J : In k [0; 1; 2; 3]) by (cbn [In]; lia). clear K Y S. cbn [In] in J. split.
  - repeat (destruct J as [<-|J]; [cbn [In] in I; repeat (destruct I as [<-|I]; [now_text|]); destruct I|]). destruct J.
  - clear J. cbn [In] in I; repeat (destruct I as [<-|I]; [now_text|]); destruct I.
Qed.
Lemma flags_text : forall p q, (p || q)%bool = true -> operand_text ((if p then "i" else "") +++ (if q then "f" else "")) (tFlags p q).
Proof. intros [] [] H; try discriminate H; now_text. Qed.
Lemma number_text : forall s v, dec_text s v -> atom_text ("#" +++ s) (tImm v).
Proof.
  intros s v D. destruct (read_dec s v D) as (R & F & N & E).
  assert (A : read_atom ("#" +++ s) = Some (tImm v)) by (cbn [append read_atom]; rewrite R; reflexivity).
  split; [exact A|]. split; [exact A|]. split; [cbn [append free]; rewrite (free_less ",[]{};#" ",[]{};" s ltac:(in_list) F); reflexivity|].
  apply tight_ends; [discriminate|reflexivity|exact E|exact N].
Qed.
Lemma label_text : forall s off, sign_text s (off + 4) -> operand_text ("." +++ s) (tLabel off).
Proof.
  intros s v D. destruct (read_sign s _ D) as (R & F & N & E).
  split; [cbn [append read_operand read_atom]; rewrite R; do 2 f_equal; lia|]. split; [apply balance_free; cbn [append free]; rewrite (free_less ",[]{};#" ",[]{}" s ltac:(in_list) F); reflexivity|].
  split; [cbn [append free]; rewrite (free_less ",[]{};#" ";" s ltac:(in_list) F); reflexivity|].
  apply tight_ends; [discriminate|reflexivity|exact E|exact N].
Qed.
Lemma cut_free : forall c s, free (String c "") s = true -> cut c s = [s].
Proof.
  intros c s. induction s as [|a s IH]; intros F; [reflexivity|]. cbn [free chars list_ascii_of_string existsb] in F. apply Bool.andb_true_iff in F. destruct F as [F F'].
  rewrite Bool.orb_false_r, Bool.negb_true_iff in F. cbn [cut]. rewrite (IH F'), F. reflexivity.
Qed.
Lemma cut_once : forall c a b, free (String c "") a = true -> free (String c "") b = true -> cut c (a +++ String c b) = [a; b].
Proof.
  intros c a b. induction a as [|x a IH]; intros F G.
  - cbn [append cut]. rewrite (cut_free c b G), Ascii.eqb_refl. reflexivity.
  - cbn [free chars list_ascii_of_string existsb] in F. apply Bool.andb_true_iff in F. destruct F as [F F']. rewrite Bool.orb_false_r, Bool.negb_true_iff in F.
    cbn [append cut]. rewrite (IH F' G), F. reflexivity.
Qed.
Lemma shift_text : forall ty n s, ty <> SR_None -> dec_text s n -> atom_text (shift_name ty +++ " #" +++ s) (tShift ty n).
Proof.
  intros ty n s T D. destruct (read_dec s n D) as (R & F & N & E).
  assert (C : cut "#" (shift_name ty +++ " #" +++ s) = [shift_name ty +++ " "; s]).
  { change (" #" +++ s) with (" " +++ String "#" s). rewrite <- append_assoc. apply cut_once; [destruct ty; reflexivity|apply (free_less ",[]{};#" "#" s ltac:(in_list) F)]. }
  assert (A : read_atom (shift_name ty +++ " #" +++ s) = Some (tShift ty n)).
  { destruct ty; [contradiction|..]; cbn [shift_name append] in *; unfold read_atom; rewrite C; unfold read_shift; rewrite R; reflexivity. }
  split; [exact A|]. split; [destruct ty; [contradiction|..]; exact A|].
  split; [rewrite !free_app, (free_less ",[]{};#" ",[]{};" s ltac:(in_list) F); destruct ty; reflexivity|].
  apply tight_ends; [destruct ty; [contradiction|..]; discriminate|destruct ty; reflexivity| |discriminate].
  rewrite without_end_app by (rewrite E; exact N). rewrite E. reflexivity.
Qed.
Definition list_reads (v : Z) : bool :=
  match format_reglist (bits 16 v) with
  | Ok t => match t with String "{" _ => true | _ => false end && match balance 0 t with Some d => d =? 0 | None => false end && free ";" t && String.eqb (without_end t) t
  | Err _ => false
  end.
Lemma list_reads_all : check_all 16 0 list_reads = true.
Proof. vm_compute. reflexivity. Qed.
Lemma list_text : forall v, 0 <= v < 65536 -> exists t, format_reglist (bits 16 v) = Ok t /\ operand_text t (tList v).
Proof.
  intros v V. pose proof (check_all_ok 16 0 list_reads list_reads_all v ltac:(change (2 ^ Z.of_nat 16) with 65536; lia)) as H. unfold list_reads in H.
  destruct (C58_readable_proof (mkfmt None []) v V) as (t & E & R). cbn [format_operand] in E.
  destruct (format_reglist (bits 16 v)) as [t'|e]; [|discriminate E]. cbn [bind] in E. injection E as ->. exists t. split; [reflexivity|].
  rewrite !Bool.andb_true_iff in H. destruct H as (((H & B) & F) & W).
  destruct t as [|c t]; [discriminate H|]. assert (c = "{"%char) as -> by (destruct c as [[] [] [] [] [] [] [] []]; (reflexivity || discriminate H)).
  split; [cbn [read_operand read_atom]; rewrite R; reflexivity|]. split; [destruct (balance 0 _) as [d|]; [apply Z.eqb_eq in B; subst d; reflexivity|discriminate B]|].
  split; [exact F|]. split; [discriminate|]. split; [apply String.eqb_eq, W|reflexivity].
Qed.

Definition written (i : insn) (o : operand) (s : option string) : Prop :=
  let imm := match a_imm32 (i_attrs i) with Some b => bv b | None => 0 end in
  match s with
  | None => tokens_of imm o = []
  | Some s => exists t, tokens_of imm o = [t] /\ operand_text s t /\ (is_atom o = true -> atom_text s t)
  end.
Lemma written_atom : forall i o, good (i_attrs i) o -> (forall l, o <> MemOp l) -> printable o = true -> exists o' s c, formats i o o' s c /\ written i o s.
Proof.
  intros i o G NM P. destruct o as [n b|b|v b| |v|t n|n|l|p q|y m]; cbn [good printable] in G, P.
  - exists (RegOp n b), (Some (if b then reg_name n +++ "!" else reg_name n)), []. split.
    + intros i2 cs A B. cbn [format_operand]. unfold format_register. rewrite register_name_ok by lia. cbn [bind]. rewrite app_nil_r. reflexivity.
    + exists (tReg n b). split; [reflexivity|]. pose proof (reg_text n b G) as T. split; [apply atom_operand, T|intros _; exact T].
  - destruct G as (v & -> & V). destruct (list_text v V) as (t & E & T). exists (ReglistOp (bits 16 v)), (Some t), []. split.
    + intros i2 cs A B. cbn [format_operand]. rewrite E. cbn [bind]. rewrite app_nil_r. reflexivity.
    + exists (tList v). split; [cbn [tokens_of]; unfold bits; cbn [bv]; rewrite Z.mod_small by exact V; reflexivity|]. split; [exact T|discriminate].
  - destruct (good_fine i (ImmOp v b) Logic.I) as (o' & s & c & F & _ & S). exists o', s, c. split; [exact F|]. specialize (S eq_refl).
    unfold written. cbn [tokens_of]. inversion S as [| | | | ? ? ? W | ? ? ? N W | | | | | | | | | | | ]; subst.
    + reflexivity.
    + rewrite Bool.andb_false_r. destruct W as ((t & -> & D) & _). exists (tImm v). split; [reflexivity|]. pose proof (number_text t v D) as T. split; [apply atom_operand, T|intros _; exact T].
    + replace (v =? 0) with false by lia. destruct W as ((t & -> & D) & _). exists (tImm v). split; [reflexivity|]. pose proof (number_text t v D) as T. split; [apply atom_operand, T|intros _; exact T].
  - destruct (good_fine i ImmRefOp G) as (o' & s & c & F & _ & S). exists o', s, c. split; [exact F|]. specialize (S eq_refl).
    unfold written. cbn [tokens_of]. inversion S as [| | | | | | v ? ? I W | | | | | | | | | | ]; subst. unfold imm_value in I. destruct (a_imm32 (i_attrs i)) as [b|]; [|discriminate I]. injection I as I.
    destruct W as ((t & -> & D) & _). exists (tImm v). split; [rewrite I; reflexivity|]. split; [apply atom_operand, number_text, D|discriminate].
  - destruct (good_fine i (LabelOp v) Logic.I) as (o' & s & c & F & _ & S). exists o', s, c. split; [exact F|]. specialize (S eq_refl).
    inversion S as [| | | | | | | ? t h W H | | | | | | | | | ]; subst. exists (tLabel v). split; [reflexivity|]. split; [apply label_text, W|discriminate].
  - destruct (good_fine i (ShiftRotateOp t n) Logic.I) as (o' & s & c & F & _ & S). exists o', s, c. split; [exact F|]. specialize (S eq_refl).
    unfold written. cbn [tokens_of]. inversion S as [| | | | | | | | | ? ? u N D | | | | | | | ]; subst.
    + reflexivity.
    + exists (tShift t n). replace (sr_eqb t SR_None) with false by (destruct t; [contradiction|..]; reflexivity). split; [reflexivity|]. pose proof (shift_text t n u N D) as T. split; [apply atom_operand, T|intros _; exact T].
  - destruct (good_fine i (BarrierOp n) Logic.I) as (o' & s & c & F & _ & S). exists o', s, c. split; [exact F|]. specialize (S eq_refl).
    unfold written. cbn [tokens_of]. inversion S as [| | | | | | | | | | | ? u N D | | | | | ]; subst.
    + exists tSystem. split; [reflexivity|]. split; [now_text|discriminate].
    + exists (tImm n). replace (n =? 15) with false by lia. split; [reflexivity|]. split; [apply atom_operand, number_text, D|discriminate].
  - exfalso. apply (NM l). reflexivity.
  - exists (CpsOp p q), (Some (format_cps p q)), []. split; [intros i2 cs A B; rewrite app_nil_r; reflexivity|].
    exists (tFlags p q). split; [reflexivity|]. split; [exact (flags_text p q P)|discriminate].
  - destruct G as (s & -> & S & M). assert (V : bv (bits 8 s) = s) by (unfold bits; cbn [bv]; apply Z.mod_small, S). rewrite V in P. destruct m as [b|].
    + destruct M as (k & -> & K). eexists _, _, []. split.
      * intros i2 cs A B. cbn [format_operand]. rewrite special_masked by assumption. cbn [bind]. rewrite app_nil_r. reflexivity.
      * exists (tSpecial s). cbn [tokens_of]. rewrite V. split; [reflexivity|]. split; [exact (proj1 (special_text s k P S K))|discriminate].
    + eexists _, _, []. split.
      * intros i2 cs A B. cbn [format_operand]. rewrite special_plain by assumption. cbn [bind]. rewrite app_nil_r. reflexivity.
      * exists (tSpecial s). cbn [tokens_of]. rewrite V. split; [reflexivity|]. split; [exact (proj2 (special_text s 0 P S ltac:(lia)))|discriminate].
Qed.
Definition imm_number (i : insn) : Z := match a_imm32 (i_attrs i) with Some b => bv b | None => 0 end.
Lemma written_list : forall i l (Q : operand -> bool), Forall (fun o => Q o = true /\ exists o' s c, formats i o o' s c /\ written i o s) l -> exists l' ss c,
  formats_all i l l' ss c /\ Forall2 (fun s t => operand_text s t /\ (forallb is_atom l = true -> atom_text s t)) ss (flat_map (tokens_of (imm_number i)) l).
Proof.
  intros i l Q F. induction F as [|o l (_ & o' & s & c & F1 & W) F (l' & ss & c' & G1 & T)].
  - exists [], [], []. split; [|constructor]. intros i2 cs A B. cbn. rewrite app_nil_r. reflexivity.
  - exists (o' :: l'), (match s with Some t => t :: ss | None => ss end), (c ++ c'). split.
    + intros i2 cs A B. cbn [format_operands]. rewrite (F1 i2 cs A B). cbn [bind]. rewrite (G1 i2 _ A B). cbn [bind]. rewrite app_assoc. reflexivity.
    + cbn [flat_map forallb]. assert (T' : Forall2 (fun s t => operand_text s t /\ ((is_atom o && forallb is_atom l)%bool = true -> atom_text s t)) ss (flat_map (tokens_of (imm_number i)) l)).
      { clear - T. induction T as [|? ? ? ? [X X'] T IH]; constructor; [|exact IH]. split; [exact X|]. intros H. apply Bool.andb_true_iff in H. apply X', H. }
      unfold written in W. fold (imm_number i) in W. destruct s as [s|].
      * destruct W as (t & -> & X & X'). cbn [app]. constructor; [|exact T']. split; [exact X|]. intros H. apply Bool.andb_true_iff in H. apply X', H.
      * rewrite W. exact T'.
Qed.
Lemma written_any : forall i o, good (i_attrs i) o -> printable o = true -> exists o' s c, formats i o o' s c /\ written i o s.
Proof.
  intros i o G P. destruct o as [n b|b|v b| |v|t n|n|l|p q|y m]; try (apply written_atom; [exact G|discriminate|exact P]).
  rewrite good_mem in G. cbn [printable] in P.
  destruct (written_list i l (fun _ => true)) as (l' & ss & c & F & T).
  { rewrite Forall_forall in *. intros o I. split; [reflexivity|]. rewrite forallb_forall in P. specialize (P o I).
    apply written_atom; [exact (proj1 (G o I))|intros l0 ->; discriminate P|destruct o; (reflexivity || discriminate P)]. }
  exists (MemOp l'), (Some ("[" +++ separated ", " ss +++ "]")), c. split.
  { intros i2 cs A B. rewrite mem_operands, (F i2 cs A B). cbn [bind]. rewrite join_separated. reflexivity. }
  exists (tMem (flat_map (tokens_of (imm_number i)) l)). split; [reflexivity|]. split; [|discriminate].
  assert (T' : Forall2 atom_text ss (flat_map (tokens_of (imm_number i)) l)).
  { clear - T P. induction T as [|? ? ? ? [X X'] T IH]; constructor; [exact (X' P)|exact IH]. }
  assert (FR : free "[]{};" (separated ", " ss) = true).
  { apply separated_free; [reflexivity|]. clear - T'. induction T' as [|? ? ? ? (_ & _ & X & _) T' IH]; constructor; [apply (free_less ",[]{};" "[]{};" _ ltac:(in_list) X)|exact IH]. }
  split; [|split; [|split]].
  - change ("[" +++ ?x) with (String "[" x). cbn [read_operand]. rewrite before_app by (apply (free_less "[]{};" "]" _ ltac:(in_list) FR)).
    change (before "]" "]") with "". rewrite append_nil. rewrite (read_all read_atom atom_text ss _ ltac:(intros s t H; split; [exact (proj1 H)|split; [exact (proj1 (proj2 (atom_operand _ _ H)))|exact (proj2 (proj2 (proj2 H)))]]) T'). reflexivity.
  - change ("[" +++ ?x) with (String "[" x). cbn [balance]. change (Ascii.eqb "[" "," && (0 =? 0))%bool with false. cbv iota. change (0 + nesting "[") with 1.
    rewrite balance_app, balance_free_inside by (lia || apply (free_less "[]{};" "[]{}" _ ltac:(in_list) FR)). reflexivity.
  - rewrite !free_app, (free_less "[]{};" ";" _ ltac:(in_list) FR). reflexivity.
  - apply tight_ends; [discriminate|reflexivity| |].
    + rewrite without_end_app; [reflexivity|discriminate].
    + destruct (separated ", " ss); discriminate.
Qed.

(** ** The operands of decoded instructions *)
Definition row_printable (r : isa_row) : Prop := forall py w,
  match observed py r w with Gives m k l ops => forallb printable ops = true | _ => True end.
Lemma rows_printable : Forall row_printable (isa16 ++ isa32).
Proof.
  apply Forall_app. split; unfold isa16, isa32; repeat (apply Forall_cons; [
    intros py w; unfold observed, documented; cbn [r_dev row row_dev r_text r_doc];
    side_bounds w;
    repeat match goal with |- match (if ?b then _ else _) with _ => _ end => destruct b eqn:? end;
    cbv iota; try exact Logic.I; unfold SpecIsa.R, SpecIsa.V, V0, RL; cbn [app];
    repeat match goal with |- context [if ?b then _ else _] => destruct b eqn:? end;
    first [reflexivity | cbn [forallb printable is_atom andb]; lia
      | cbn [forallb printable]; unfold bits; cbn [bv]; change (2 ^ 8) with 256; rewrite !Z.mod_small by lia;
        match goal with |- context [special ?x] => destruct (special x) end; [reflexivity|cbn [negb] in *; rewrite ?Bool.orb_true_r in *; discriminate]]
    |]); apply Forall_nil.
Qed.

Lemma decoded_printable : forall py i, from_bytes py i -> Forall (fun o => printable o = true) (i_operands i).
Proof.
  intros py i (data & a & B & E).
  assert (L : (2 <= List.length data)%nat) by (destruct (C30_bytes_proof py data a i B E) as (_ & _ & S & S'); destruct (in_dec Z.eq_dec _ _) in S; lia).
  destruct (decode_cases py data a B L) as [X|[X|[w [is32 [r [I [F [O [X D]]]]]]]]]; rewrite X in E; try discriminate E.
  pose proof (proj1 (Forall_forall _ _) rows_printable r I py w) as S.
  destruct (observed py r w) as [m k l ops| | |e]; cbn [decoded] in E; try discriminate E. injection E as <-. apply Forall_forall. rewrite forallb_forall in S. exact S.
Qed.

(** ** The line *)
Lemma mnemonic_shape : forall m ts x, reading m ts = Some x -> m <> "" /\ free " ;" m = true /\ (String.length m < 8)%nat.
Proof.
  intros m ts x R. assert (I : In m (map fst mnemonics)).
  { unfold reading in R. induction mnemonics as [|[m' f] t IH]; [discriminate R|]. cbn [reading_in] in R. destruct (String.eqb_spec m m') as [->|]; [left; reflexivity|right; apply IH, R]. }
  assert (C : forallb (fun m => negb (String.eqb m "") && free " ;" m && (String.length m <? 8)%nat)%bool (map fst mnemonics) = true) by (vm_compute; reflexivity).
  rewrite forallb_forall in C. specialize (C m I). rewrite !Bool.andb_true_iff in C. destruct C as ((C & C') & C'').
  split; [intros ->; discriminate C|]. split; [exact C'|]. apply Nat.ltb_lt, C''.
Qed.
Lemma column_length : forall l s, byte_column l s -> String.length s = 12%nat.
Proof.
  intros l s C. destruct l as [|b0 [|b1 [|b2 [|b3 [|b4 l]]]]]; cbn [byte_column] in C; try contradiction.
  - destruct C as (h & -> & L & _). rewrite string_length_app, L. reflexivity.
  - destruct C as (h & h' & -> & (L & _) & (L' & _)). rewrite !string_length_app, L, L'. reflexivity.
Qed.
Lemma blanks_one : forall n, blanks n +++ " " = blanks (S n).
Proof. induction n as [|n IH]; [reflexivity|]. cbn [blanks append]. rewrite IH. reflexivity. Qed.
Definition shape (m : string) : Prop := m <> "" /\ free " ;" m = true /\ (String.length m < 8)%nat.
Lemma line_parts : forall m column ss ts rest c, String.length column = 12%nat -> Forall2 operand_text ss ts -> shape m ->
  rest = column +++ " " +++ left_justified 8 m +++ separated ", " ss ->
  let s := middle (match c with [] => rest | _ => left_justified 36 rest +++ " ; " +++ separated " " c end) in
  before " " s = m /\ read_list read_operand (without_start (skipped (String.length m) s)) = Some ts.
Proof.
  intros m column ss ts rest c L F (NM & FM & LM) ->.
  set (body := left_justified 8 m +++ separated ", " ss).
  assert (FB : free ";" body = true).
  { unfold body, left_justified. rewrite !free_app, (free_less " ;" ";" m ltac:(in_list) FM). replace (free ";" (blanks (Z.to_nat (8 - Z.of_nat (String.length m))))) with true.
    - cbn [andb]. apply separated_free; [reflexivity|]. clear - F. induction F as [|? ? ? ? (_ & _ & X & _) F IH]; constructor; [exact X|exact IH].
    - symmetry. clear. induction (Z.to_nat (8 - Z.of_nat (String.length m))) as [|n IH]; [reflexivity|]. exact IH. }
  assert (MID : middle (match c with [] => column +++ " " +++ body | _ => left_justified 36 (column +++ " " +++ body) +++ " ; " +++ separated " " c end) = without_end body).
  { assert (S13 : forall y, skipped 13 (column +++ " " +++ y) = y).
    { intros y. rewrite <- append_assoc. apply skipped_app. rewrite string_length_app, L. reflexivity. }
    unfold middle. destruct c as [|c0 c].
    - rewrite S13. rewrite <- (append_nil body) at 1. rewrite before_app by exact FB. cbn [before]. rewrite append_nil. reflexivity.
    - unfold left_justified at 1. rewrite !append_assoc, S13, before_app by exact FB.
      set (n := Z.to_nat _). rewrite before_app by (clear; induction n as [|n IH]; [reflexivity|exact IH]).
      change (before ";" (" ; " +++ separated " " (c0 :: c))) with " ". rewrite blanks_one, without_end_pad. reflexivity. }
  fold body. cbv zeta. rewrite MID. clear MID.
  assert (BM : forall y, before " " (m +++ y) = m +++ before " " y) by (intros y; apply before_app, (free_less " ;" " " m ltac:(in_list) FM)).
  assert (WM : without_end m = m).
  { clear - FM. induction m as [|a m IH]; [reflexivity|]. cbn [free chars list_ascii_of_string existsb] in FM. apply Bool.andb_true_iff in FM. destruct FM as [F F'].
    rewrite !Bool.negb_true_iff, !Bool.orb_false_iff in F. cbn [without_end]. rewrite (IH F'), (proj1 F). destruct m; reflexivity. }
  unfold body, left_justified. destruct ss as [|s ss].
  - inversion F; subst. cbn [separated]. rewrite append_nil, without_end_pad, WM.
    assert (BM' : before " " m = m) by (rewrite <- (append_nil m) at 1; rewrite BM; cbn [before]; apply append_nil). split; [exact BM'|].
    assert (SM : skipped (String.length m) m = "") by (rewrite <- (append_nil m) at 2; apply skipped_app; reflexivity). rewrite SM.
    reflexivity.
  - assert (T : tight (separated ", " (s :: ss))).
    { apply separated_tight; [|discriminate]. clear - F. induction F as [|? ? ? ? (_ & _ & _ & X) F IH]; constructor; [exact X|exact IH]. }
    rewrite append_assoc. rewrite !without_end_app; [|rewrite (proj1 (proj2 T)); exact (proj1 T)|].
    2: { rewrite without_end_app by (rewrite (proj1 (proj2 T)); exact (proj1 T)). rewrite (proj1 (proj2 T)). destruct (blanks _); [exact (proj1 T)|discriminate]. }
    rewrite (proj1 (proj2 T)). replace (Z.to_nat (8 - Z.of_nat (String.length m))) with (S (7 - String.length m)) by lia. split.
    { rewrite BM. change (before " " (blanks (S ?n) +++ ?y)) with "". apply append_nil. }
    rewrite skipped_app by reflexivity. rewrite without_start_pad, (proj2 (proj2 T)).
    exact (read_all read_operand operand_text (s :: ss) ts ltac:(intros a b (X & X' & _ & X''); auto) F).
Qed.
Lemma printed_parts : forall py i, from_bytes py i -> shape (i_mnemonic i) -> exists text, (forall f, text_of f i = Ok text) /\
  before " " (middle text) = i_mnemonic i /\ understood text = reading (i_mnemonic i) (tokens i).
Proof.
  intros py i B SH. pose proof (decoded_good py i B) as G. pose proof (decoded_printable py i B) as P.
  destruct (format_good i G) as (column & ops & ss & c & C & F & _ & T & _).
  destruct (written_list i (i_operands i) (fun _ => true)) as (l' & ss' & c' & F' & W).
  { rewrite Forall_forall in *. intros o I. split; [reflexivity|]. apply written_any; [exact (G o I)|exact (P o I)]. }
  specialize (F i [] eq_refl eq_refl). rewrite (F' i [] eq_refl eq_refl) in F. injection F as -> -> ->.
  assert (W' : Forall2 operand_text ss (tokens i)).
  { unfold tokens. fold (imm_number i). clear - W. induction W as [|? ? ? ? [X _] W IH]; constructor; [exact X|exact IH]. }
  destruct (line_parts (i_mnemonic i) column ss (tokens i) _ c (column_length _ _ C) W' SH eq_refl) as [M R].
  eexists. split; [intros f; unfold text_of; rewrite T; reflexivity|]. split; [exact M|]. unfold understood. rewrite M, R. reflexivity.
Qed.
