(** * Properties C23-C27 and C29: format strings, decoders, the tree *)
From Coq Require Import Lia ZifyBool Permutation Sorted.
From Verif Require Import DecoderModel SpecBits SpecArm SpecDecoder BitFacts BitOps BitText UtilFacts UtilThms ParseFacts TreeFacts HelpFacts.
(*@imports
From Coq Require Import Lia Permutation Sorted.
From Verif Require Import DecoderModel SpecBits SpecDecoder DecThms.
@*)

(*@doc C23: a text that writes a sequence of items parses to that sequence. @*)
Lemma C23_parse_proof : forall items text, spelled items (chars text) -> parse_spec text = Ok items.
Proof.
  intros items text H. unfold parse_spec. exact (spelled_parse _ _ H [] false []).
Qed.
(*@ex
Example C23_parse_ex : spelled [FField "i" 1; FBit 1; FField "Rn" 4; FConst "M" (bits 2 2)] (chars " i 1Rn (4 ) M=10") /\
  parse_spec " i 1Rn (4 ) M=10" = Ok [FField "i" 1; FBit 1; FField "Rn" 4; FConst "M" (bits 2 2)].
Proof.
  split; [|reflexivity].
  assert (B : blank " ") by (left; reflexivity).
  assert (Bs : blanks [" "%char]) by (apply Forall_cons; [exact B | apply Forall_nil]).
  assert (B0 : blanks []) by apply Forall_nil.
  assert (L : letter "i" /\ letter "R" /\ letter "n" /\ letter "M" /\ decimal "4") by (unfold letter, decimal; cbn; lia).
  destruct L as [Li [LR [Ln [LM D4]]]].
  apply (spelled_name [" "%char] ["i"%char]); [exact Bs | split; [exact Li | apply Forall_nil] | exact B |].
  apply (spelled_bit [" "%char] "1"%char); [exact Bs | right; reflexivity |].
  apply (spelled_sized [] ["R"%char; "n"%char] [" "%char] [] ["4"%char] [" "%char]); try assumption.
  - split; [exact LR | apply Forall_cons; [left; exact Ln | apply Forall_nil]].
  - split; [discriminate | apply Forall_cons; [exact D4 | apply Forall_nil]].
  - apply (spelled_const [" "%char] ["M"%char] ["1"%char; "0"%char] [] []); [exact Bs | split; [exact LM | apply Forall_nil] | | exact I | apply spelled_nil; exact B0].
    split; [discriminate|]. apply Forall_cons; [right; reflexivity|]. apply Forall_cons; [left; reflexivity | apply Forall_nil].
Qed.
@*)

(*@doc C23: any other text is either read as some items or rejected by ValueError. @*)
Lemma C23_reject_proof : forall text e, parse_spec text = Err e -> e = ValueError.
Proof. exact parse_err. Qed.
(*@ex
Example C23_reject_ex : parse_spec "a (x" = Err ValueError /\ parse_spec "01 ?" = Err ValueError.
Proof. split; reflexivity. Qed.
@*)

(*@doc C24: a halfword written by a format passes the check, and the handler gets
the chosen field values. @*)
Lemma C24_encode16_proof : forall (H : Type) (h : H) mnemonic k text kw fmt vals, 
  parse_spec text = Ok fmt -> total_size fmt = 16 -> NoDup (names fmt) ->
  exists d, make_decoder h mnemonic k text None kw = Ok d /\
    0 <= encode vals fmt < 2 ^ 16 /\ check d (encode vals fmt) = true /\
    forall call py a, decode_one call py d (encode vals fmt) a =
      call py h (blank_insn k mnemonic (encode vals fmt) a false kw) (arguments vals fmt).
Proof.
  intros H h mn k s kw fmt vals E Ht Hn. rewrite (make16 h mn k s kw fmt E Hn Ht).
  pose proof (parse_items_ok _ _ E) as O. apply Forall_rev in O. rewrite encode_le.
  eexists. split; [reflexivity|]. split; [|split].
  - pose proof (le_encode_bound vals _ O) as B. rewrite total_rev, Ht in B. exact B.
  - unfold check. cbn [d_mask d_match]. rewrite encode_checks by exact O. apply Z.eqb_refl.
  - intros call py a. unfold decode_one. cbn [d_fields d_klass d_mnemonic d_is32 d_args d_handler].
    change (map_res _ ?l) with (map_res (read_field (le_encode vals (rev fmt))) l).
    rewrite (read_encoded vals (rev fmt) _ 0 O) by (lia || apply Z.shiftr_0_r). reflexivity.
Qed.
(*@ex
Example C24_encode16_ex : parse_spec "000 11 I 0 imm3(3) Rn(3) Rd(3)" =
    Ok [FBit 0; FBit 0; FBit 0; FBit 1; FBit 1; FField "I" 1; FBit 0; FField "imm3" 3; FField "Rn" 3; FField "Rd" 3] /\
  encode (fun n => if String.eqb n "I" then 1 else if String.eqb n "imm3" then 5 else if String.eqb n "Rn" then 2 else 7)
    [FBit 0; FBit 0; FBit 0; FBit 1; FBit 1; FField "I" 1; FBit 0; FField "imm3" 3; FField "Rn" 3; FField "Rd" 3] = 7511.
Proof. split; reflexivity. Qed.
@*)

(*@doc C24: the same for two halfwords; the first format gives the low half of the
word. @*)
Lemma C24_encode32_proof : forall (H : Type) (h : H) mnemonic k text text2 kw fmt fmt2 vals, 
  parse_spec text = Ok fmt -> total_size fmt = 16 -> parse_spec text2 = Ok fmt2 -> total_size fmt2 = 16 ->
  NoDup (names fmt ++ names fmt2) ->
  exists d, make_decoder h mnemonic k text (Some text2) kw = Ok d /\
    let w := encode vals fmt + 2 ^ 16 * encode vals fmt2 in
    0 <= w < 2 ^ 32 /\ check d w = true /\
    forall call py a, decode_one call py d w a =
      call py h (blank_insn k mnemonic w a true kw) (arguments vals fmt ++ arguments vals fmt2).
Proof.
  intros H h mn k s s2 kw fmt fmt2 vals E Ht E2 Ht2 Hn. rewrite (make32 h mn k s s2 kw fmt fmt2 E E2 Hn Ht Ht2).
  pose proof (parse_items_ok _ _ E) as O. apply Forall_rev in O. pose proof (parse_items_ok _ _ E2) as O2. apply Forall_rev in O2.
  rewrite !encode_le.
  assert (EA : le_encode vals (rev fmt) + 2 ^ 16 * le_encode vals (rev fmt2) = le_encode vals (rev fmt ++ rev fmt2)).
  { rewrite le_encode_app by exact O. rewrite total_rev, Ht. reflexivity. }
  assert (OA : Forall item_ok (rev fmt ++ rev fmt2)) by (apply Forall_app; split; assumption).
  eexists. split; [reflexivity|]. cbv zeta. rewrite EA. split; [|split].
  - pose proof (le_encode_bound vals _ OA) as B. rewrite total_app, !total_rev, Ht, Ht2 in B. exact B.
  - unfold check. cbn [d_mask d_match]. rewrite encode_checks by exact OA. apply Z.eqb_refl.
  - intros call py a. unfold decode_one. cbn [d_fields d_klass d_mnemonic d_is32 d_args d_handler].
    change (map_res _ ?l) with (map_res (read_field (le_encode vals (rev fmt ++ rev fmt2))) l).
    rewrite (read_encoded vals _ _ 0 OA) by (lia || apply Z.shiftr_0_r). cbn [bind]. unfold arguments.
    rewrite flat_map_app. reflexivity.
Qed.
(*@ex
Example C24_encode32_ex : exists fmt fmt2,
  parse_spec "11110 i 0 0010 S 1111" = Ok fmt /\ total_size fmt = 16 /\
  parse_spec "0 imm3(3) Rd(4) imm8(8)" = Ok fmt2 /\ total_size fmt2 = 16 /\
  names fmt ++ names fmt2 = ["i"; "S"; "imm3"; "Rd"; "imm8"]%string /\
  encode (fun _ => 1) fmt + 2 ^ 16 * encode (fun _ => 1) fmt2 = 285340767.
Proof. do 2 eexists. do 4 (split; [vm_compute; reflexivity|]). split; vm_compute; reflexivity. Qed.
@*)

(*@doc C24: every halfword (word) that passes the check is written by the format for
some field values. @*)
Lemma C24_only16_proof : forall (H : Type) (h : H) mnemonic k text kw fmt d w, 
  parse_spec text = Ok fmt -> NoDup (names fmt) -> make_decoder h mnemonic k text None kw = Ok d ->
  0 <= w < 2 ^ 16 -> check d w = true -> exists vals, w = encode vals fmt.
Proof.
  intros H h mn k s kw fmt d w E Hn M B C.
  assert (Ht : total_size fmt = 16).
  { destruct (Z.eq_dec (total_size fmt) 16) as [Ht|Ht]; [exact Ht|]. rewrite (make_bad h mn k s None kw fmt E Ht) in M. discriminate. }
  rewrite (make16 h mn k s kw fmt E Hn Ht) in M. injection M as <-.
  pose proof (parse_items_ok _ _ E) as O. apply Forall_rev in O. unfold check in C. cbn [d_mask d_match] in C. apply Z.eqb_eq in C.
  destruct (check_encodes (rev fmt) w O) as [vals Ev].
  - apply (Permutation_NoDup (Permutation_sym (names_rev fmt))). exact Hn.
  - rewrite total_rev, Ht. exact B.
  - exact C.
  - exists vals. rewrite encode_le. exact Ev.
Qed.
(*@ex
Example C24_only16_ex : exists d, make_decoder tt "adds" Instruction "000 11 I 0 imm3(3) Rn(3) Rd(3)" None [] = Ok d /\
  check d 7511 = true /\ check d 8023 = false.
Proof. eexists. split; [vm_compute; reflexivity|]. split; vm_compute; reflexivity. Qed.
@*)

Lemma C24_only32_proof : forall (H : Type) (h : H) mnemonic k text text2 kw fmt fmt2 d w, 
  parse_spec text = Ok fmt -> parse_spec text2 = Ok fmt2 -> NoDup (names fmt ++ names fmt2) ->
  make_decoder h mnemonic k text (Some text2) kw = Ok d ->
  0 <= w < 2 ^ 32 -> check d w = true -> exists vals, w = encode vals fmt + 2 ^ 16 * encode vals fmt2.
Proof.
  intros H h mn k s s2 kw fmt fmt2 d w E E2 Hn M B C.
  assert (Ht : total_size fmt = 16).
  { destruct (Z.eq_dec (total_size fmt) 16) as [Ht|Ht]; [exact Ht|]. rewrite (make_bad h mn k s _ kw fmt E Ht) in M. discriminate. }
  assert (Ht2 : total_size fmt2 = 16).
  { destruct (Z.eq_dec (total_size fmt2) 16) as [Ht2|Ht2]; [exact Ht2|]. rewrite (make_bad2 h mn k s s2 kw fmt fmt2 E E2 Ht2) in M. discriminate. }
  rewrite (make32 h mn k s s2 kw fmt fmt2 E E2 Hn Ht Ht2) in M. injection M as <-.
  pose proof (parse_items_ok _ _ E) as O. apply Forall_rev in O. pose proof (parse_items_ok _ _ E2) as O2. apply Forall_rev in O2.
  assert (OA : Forall item_ok (rev fmt ++ rev fmt2)) by (apply Forall_app; split; assumption).
  unfold check in C. cbn [d_mask d_match] in C. apply Z.eqb_eq in C.
  destruct (check_encodes (rev fmt ++ rev fmt2) w OA) as [vals Ev].
  - rewrite names_app. apply (Permutation_NoDup (l := names fmt ++ names fmt2)); [|exact Hn].
    apply Permutation_app; apply Permutation_sym, names_rev.
  - rewrite total_app, !total_rev, Ht, Ht2. exact B.
  - exact C.
  - exists vals. rewrite !encode_le, Ev, le_encode_app by exact O. rewrite total_rev, Ht. reflexivity.
Qed.
(*@ex
Example C24_only32_ex : exists d, make_decoder tt "mov" Instruction "11110 i 0 0010 S 1111" (Some "0 imm3(3) Rd(4) imm8(8)"%string) [] = Ok d /\
  check d 285340767 = true /\ check d 285406302 = false.
Proof. eexists. split; [vm_compute; reflexivity|]. split; vm_compute; reflexivity. Qed.
@*)

(*@doc C24: a format of any other size is rejected, in either half. @*)
Lemma C24_size_proof : forall (H : Type) (h : H) mnemonic k text text2 kw fmt fmt2, 
  parse_spec text = Ok fmt -> parse_spec text2 = Ok fmt2 ->
  (total_size fmt <> 16 -> make_decoder h mnemonic k text None kw = Err AssertionError) /\
  (total_size fmt <> 16 \/ total_size fmt2 <> 16 -> make_decoder h mnemonic k text (Some text2) kw = Err AssertionError).
Proof.
  intros H h mn k s s2 kw fmt fmt2 E E2. split; [apply make_bad; exact E|].
  intros [N|N]; [apply (make_bad h mn k s _ kw fmt E N) | apply (make_bad2 h mn k s s2 kw fmt fmt2 E E2 N)].
Qed.
(*@ex
Example C24_size_ex : make_decoder tt "x" Instruction "0000 0000 a(7)" None [] = Err AssertionError /\
  make_decoder tt "x" Instruction "0000 0000 a(8)" (Some "0000 0000 a(9)"%string) [] = Err AssertionError.
Proof. split; reflexivity. Qed.
@*)

Lemma narrow_ok : forall H (ds : list (decoder H)) P, Forall made ds -> Forall dec_ok (filter P ds).
Proof. intros H ds P F. apply filter_in_ok. rewrite Forall_forall in *. intros x Hx. apply made_ok, F, Hx. Qed.

Lemma built : forall (H : Type) (ds : list (decoder H)), Forall made ds ->
  exists t16 t32, build ds = Ok (mkdtree t16 t32) /\ forall call py w a,
    snd (tree_decode call py t16 w a) = outcome call py w a (S (List.length ds)) (sortw weight (registered16 ds)) /\
    snd (tree_decode call py t32 w a) = outcome call py w a (S (List.length ds)) (sortw weight (registered32 ds)).
Proof.
  intros H ds M.
  pose proof (narrow_ok _ ds (fun d => negb (d_is32 d)) M) as O16. pose proof (narrow_ok _ ds d_is32 M) as O32.
  fold (registered16 ds) in O16. fold (registered32 ds) in O32.
  assert (L16 : (List.length (registered16 ds) < S (List.length ds))%nat) by (pose proof (filter_len _ (fun d => negb (d_is32 d)) ds); unfold registered16; lia).
  assert (L32 : (List.length (registered32 ds) < S (List.length ds))%nat) by (pose proof (filter_len _ d_is32 ds); unfold registered32; lia).
  pose (call0 := fun (_ : pyver) (_ : H) (_ : insn) (_ : list (string * bs)) => @Err insn TypeError).
  destruct (build_any call0 _ _ L16 O16) as [t16 [E16 _]]. destruct (build_any call0 _ _ L32 O32) as [t32 [E32 _]].
  exists t16, t32. split; [unfold build; rewrite E16; cbn [bind]; rewrite E32; reflexivity|].
  intros call py w a. split.
  - destruct (build_any call _ _ L16 O16) as [t' [E' T]]. replace t16 with t' by congruence. apply T.
  - destruct (build_any call _ _ L32 O32) as [t' [E' T]]. replace t32 with t' by congruence. apply T.
Qed.

Lemma outcome_first : forall (H : Type) call (ds : list (decoder H)) py w a l o f,
  Forall dec_ok ds -> (List.length ds < f)%nat -> priority_order ds l -> first_of call py w a l o ->
  match o with
  | Some r => outcome call py w a f (sortw weight ds) = r
  | None => outcome call py w a f (sortw weight ds) = Err UndefinedInstructionError \/
            outcome call py w a f (sortw weight ds) = Err AttributeError
  end.
Proof.
  intros H call ds py w a l o f O L P F. apply (priority_sort weight) in P. subst l.
  apply first_scan in F; [|apply sortw_ok; exact O]. unfold outcome. rewrite F. destruct o as [r|]; [reflexivity|].
  destruct (miss_cases f (sortw weight ds) w) as [-> | ->]; [rewrite sortw_length; exact L | left; reflexivity | right; reflexivity].
Qed.

(*@doc C25: searching a tree gives the result of the first decoder, in priority
order, that matches and does not decline; if there is none it raises. @*)
Lemma C25_tree_proof : forall (H : Type) call (ds : list (decoder H)) t py w a l o,
  Forall made ds -> build ds = Ok t ->
  (priority_order (filter (fun d => negb (d_is32 d)) ds) l -> first_of call py w a l o ->
   match o with
   | Some r => snd (tree_decode call py (t_16 t) w a) = r
   | None => snd (tree_decode call py (t_16 t) w a) = Err UndefinedInstructionError \/
             snd (tree_decode call py (t_16 t) w a) = Err AttributeError
   end) /\
  (priority_order (filter d_is32 ds) l -> first_of call py w a l o ->
   match o with
   | Some r => snd (tree_decode call py (t_32 t) w a) = r
   | None => snd (tree_decode call py (t_32 t) w a) = Err UndefinedInstructionError \/
             snd (tree_decode call py (t_32 t) w a) = Err AttributeError
   end).
Proof.
  intros H call ds t py w a l o M B. destruct (built H ds M) as [t16 [t32 [E T]]]. rewrite B in E. injection E as ->.
  cbn [t_16 t_32]. destruct (T call py w a) as [T16 T32]. rewrite T16, T32.
  split; intros P F.
  - apply (outcome_first _ _ _ _ _ _ l o); [apply narrow_ok; exact M | unfold registered16 | exact P | exact F].
    pose proof (filter_len _ (fun d => negb (d_is32 d)) ds). lia.
  - apply (outcome_first _ _ _ _ _ _ l o); [apply narrow_ok; exact M | unfold registered32 | exact P | exact F].
    pose proof (filter_len _ d_is32 ds). lia.
Qed.
(*@ex
Example C25_tree_ex : exists d1 d2 t,
  make_decoder 1 "one" Instruction "0000 0000 a(8)" None [] = Ok d1 /\
  make_decoder 2 "two" Instruction "0000 0000 0000 a(4)" None [] = Ok d2 /\ build [d1; d2] = Ok t /\
  let call := fun (_ : pyver) (h : Z) (i : insn) (_ : list (string * bs)) => if h =? 2 then Err DecodeError else Ok i in
  weight d1 = 8 /\ weight d2 = 12 /\
  (exists i, snd (tree_decode call Py3 (t_16 t) 5 0) = Ok i /\ i_mnemonic i = "one"%string) /\
  snd (tree_decode call Py3 (t_16 t) 256 0) = Err UndefinedInstructionError.
Proof.
  do 3 eexists. do 3 (split; [vm_compute; reflexivity|]). cbv zeta. do 2 (split; [reflexivity|]).
  split; [eexists; split; reflexivity | reflexivity].
Qed.
@*)

(*@doc C25: such an order and such a result always exist, for every word. @*)
Lemma C25_total_proof : forall (H : Type) call (ds : list (decoder H)) py w a, Forall made ds ->
  exists l o, priority_order ds l /\ first_of call py w a l o.
Proof.
  intros H call ds py w a M. exists (sortw weight ds), (scan call py w a (sortw weight ds)).
  split; [apply (sortw_priority weight)|]. apply scan_first, sortw_ok. rewrite Forall_forall in *. intros x Hx. apply made_ok, M, Hx.
Qed.
(*@ex
Example C25_total_ex : exists d, make_decoder 1 "one" Instruction "0000 0000 a(8)" None [] = Ok d /\ weight d = 8.
Proof. eexists. split; [vm_compute; reflexivity | vm_compute; reflexivity]. Qed.
@*)

(*@doc C26: building terminates for every list of decoders: the tree does not
depend on how much more fuel is given than the number of decoders. @*)
Lemma C26_build_proof : forall (H : Type) (ds : list (decoder H)), Forall made ds ->
  (exists t, build ds = Ok t) /\
  exists t, forall fuel, (List.length ds < fuel)%nat -> build_tree fuel ds = Ok t.
Proof.
  intros H ds M. split.
  - destruct (built H ds M) as [t16 [t32 [E _]]]. exists (mkdtree t16 t32). exact E.
  - pose (call0 := fun (_ : pyver) (_ : H) (_ : insn) (_ : list (string * bs)) => @Err insn TypeError).
    destruct (build_any call0 (S (List.length ds)) ds) as [t [E _]]; [lia | |].
    + rewrite Forall_forall in *. intros x Hx. apply made_ok, M, Hx.
    + exists t. intros fuel L. apply (build_fuel _ _ _ _ E). lia.
Qed.
(*@ex
Example C26_build_ex : exists d1 d2 t, 
  make_decoder 1 "one" Instruction "0000 0000 a(8)" None [] = Ok d1 /\
  make_decoder 2 "two" Instruction "0001 0000 0000 a(4)" None [] = Ok d2 /\ build [d1; d2] = Ok t /\
  t_16 t = Node 65280 [(4096, Leaf [d2]); (0, Leaf [d1])].
Proof. do 3 eexists. do 3 (split; [vm_compute; reflexivity|]). vm_compute; reflexivity. Qed.
@*)

(** ** C27 *)
Lemma prefix_byte : forall b0 b1, 0 <= b0 < 256 -> 0 <= b1 < 256 ->
  is_32bit_prefix (b0 + 256 * b1) = ((b1 / 8 =? 29) || (b1 / 8 =? 30) || (b1 / 8 =? 31)).
Proof.
  intros b0 b1 H0 H1. unfold is_32bit_prefix.
  assert (E : Z.land (b0 + 256 * b1) 63488 = Z.land b1 248 * 256).
  { apply Z.bits_inj'. intros i Hi. rewrite Z.land_spec. rewrite <- (Z.shiftl_mul_pow2 _ 8) by lia. rewrite Z.shiftl_spec by lia.
    rewrite Z.land_spec. replace 63488 with (Z.shiftl 248 8) by reflexivity. rewrite Z.shiftl_spec by lia.
    destruct (Z.ltb_spec i 8) as [L|L].
    - rewrite (Z.testbit_neg_r 248) by lia. rewrite !andb_false_r. reflexivity.
    - f_equal. replace (b0 + 256 * b1) with (b0 + 2 ^ 8 * b1) by reflexivity.
      replace i with ((i - 8) + 8) at 1 by lia. rewrite <- Z.div_pow2_bits by lia.
      replace (b0 + 2 ^ 8 * b1) with (b1 * 2 ^ 8 + b0) by lia. rewrite Z.div_add_l by lia.
      rewrite Z.div_small by (change (2 ^ 8) with 256; lia). rewrite Z.add_0_r. reflexivity. }
  rewrite E.
  assert (E2 : Z.land b1 248 = b1 / 8 * 8).
  { apply (sweep _ (fun b => Z.land b 248) (fun b => b / 8 * 8) 256); [vm_compute; reflexivity | exact H1]. }
  rewrite E2. cbn [existsb]. lia.
Qed.

Lemma le16_first : forall b0 b1 r, bytes_to_le16 (b0 :: b1 :: r) 0 = bytes_to_le16 [b0; b1] 0.
Proof.
  intros b0 b1 r. unfold bytes_to_le16. rewrite !py_nth_nth by (cbn [List.length]; lia). reflexivity.
Qed.
Lemma le16_second : forall b0 b1 b2 b3 r, bytes_to_le16 (b0 :: b1 :: b2 :: b3 :: r) 2 = bytes_to_le16 [b0; b1; b2; b3] 2.
Proof.
  intros b0 b1 b2 b3 r. unfold bytes_to_le16. rewrite !py_nth_nth by (cbn [List.length]; lia). reflexivity.
Qed.

(*@doc C27: the outcome depends only on the bytes of the instruction. @*)
Lemma C27_frame_proof : forall (H : Type) (call : pyver -> H -> insn -> list (string * bs) -> res insn) py t b0 b1 rest rest' a,
  0 <= b0 < 256 -> 0 <= b1 < 256 ->
  (~ In (b1 / 8) [29; 30; 31] -> decode call py t (b0 :: b1 :: rest) a = decode call py t (b0 :: b1 :: rest') a) /\
  (In (b1 / 8) [29; 30; 31] -> forall b2 b3, 
    decode call py t (b0 :: b1 :: b2 :: b3 :: rest) a = decode call py t (b0 :: b1 :: b2 :: b3 :: rest') a).
Proof.
  intros H call py t b0 b1 rest rest' a H0 H1.
  assert (L : forall r, negb (2 <=? Z.of_nat (List.length (b0 :: b1 :: r))) = false) by (intro r; cbn [List.length]; lia).
  assert (P : forall r, bytes_to_le16 (b0 :: b1 :: r) 0 = bytes_to_le16 [b0; b1] 0) by (intro r; apply le16_first).
  assert (B : bytes_to_le16 [b0; b1] 0 = Ok (b0 + 256 * b1)).
  { rewrite bytes16_at; [reflexivity | lia | cbn [List.length]; lia | repeat (apply Forall_cons; [assumption|]); apply Forall_nil]. }
  pose proof (prefix_byte b0 b1 H0 H1) as X. cbn [In].
  split; intro I.
  - unfold decode. rewrite !L, (P rest), (P rest'), B. replace (is_32bit_prefix (b0 + 256 * b1)) with false by (rewrite X; lia). reflexivity.
  - intros b2 b3. unfold decode. rewrite !L, (P (b2 :: b3 :: rest)), (P (b2 :: b3 :: rest')), B. replace (is_32bit_prefix (b0 + 256 * b1)) with true by (rewrite X; lia).
    assert (L4 : forall r, (Z.of_nat (List.length (b0 :: b1 :: b2 :: b3 :: r)) <? 4) = false) by (intro r; cbn [List.length]; lia).
    rewrite !L4. assert (P2 : forall r, bytes_to_le16 (b0 :: b1 :: b2 :: b3 :: r) 2 = bytes_to_le16 [b0; b1; b2; b3] 2) by (intros; apply le16_second).
    rewrite (P2 rest), (P2 rest'). reflexivity.
Qed.
(*@ex
Example C27_frame_ex : ~ In (191 / 8) [29; 30; 31] /\ In (240 / 8) [29; 30; 31].
Proof. split; cbv; intuition discriminate. Qed.
@*)

(*@doc C27: which tree is asked about which word. @*)
Lemma C27_word_proof : forall (H : Type) (call : pyver -> H -> insn -> list (string * bs) -> res insn) py t b0 b1 rest a,
  0 <= b0 < 256 -> 0 <= b1 < 256 ->
  (~ In (b1 / 8) [29; 30; 31] ->
   snd (decode call py t (b0 :: b1 :: rest) a) = snd (tree_decode call py (t_16 t) (b0 + 256 * b1) a)) /\
  (In (b1 / 8) [29; 30; 31] -> forall b2 b3, 0 <= b2 < 256 -> 0 <= b3 < 256 ->
   snd (decode call py t (b0 :: b1 :: b2 :: b3 :: rest) a) =
   snd (tree_decode call py (t_32 t) (b0 + 256 * b1 + 65536 * b2 + 16777216 * b3) a)).
Proof.
  intros H call py t b0 b1 rest a H0 H1.
  assert (L : forall r, negb (2 <=? Z.of_nat (List.length (b0 :: b1 :: r))) = false) by (intro r; cbn [List.length]; lia).
  assert (P : forall r, bytes_to_le16 (b0 :: b1 :: r) 0 = bytes_to_le16 [b0; b1] 0) by (intro r; apply le16_first).
  assert (B : bytes_to_le16 [b0; b1] 0 = Ok (b0 + 256 * b1)).
  { rewrite bytes16_at; [reflexivity | lia | cbn [List.length]; lia | repeat (apply Forall_cons; [assumption|]); apply Forall_nil]. }
  pose proof (prefix_byte b0 b1 H0 H1) as X. cbn [In].
  split; intro I.
  - unfold decode. rewrite !L, (P rest), B. replace (is_32bit_prefix (b0 + 256 * b1)) with false by (rewrite X; lia).
    destruct (tree_decode call py (t_16 t) (b0 + 256 * b1) a). reflexivity.
  - intros b2 b3 H2 H3. unfold decode. rewrite !L, (P (b2 :: b3 :: rest)), B. replace (is_32bit_prefix (b0 + 256 * b1)) with true by (rewrite X; lia).
    assert (L4 : forall r, (Z.of_nat (List.length (b0 :: b1 :: b2 :: b3 :: r)) <? 4) = false) by (intro r; cbn [List.length]; lia).
    rewrite !L4.
    assert (P2 : bytes_to_le16 (b0 :: b1 :: b2 :: b3 :: rest) 2 = bytes_to_le16 [b0; b1; b2; b3] 2) by (intros; apply le16_second).
    assert (B2 : bytes_to_le16 [b0; b1; b2; b3] 2 = Ok (b2 + 256 * b3)).
    { rewrite bytes16_at; [reflexivity | lia | cbn [List.length]; lia | repeat (apply Forall_cons; [assumption|]); apply Forall_nil]. }
    rewrite P2, B2.
    replace (Z.lor (b0 + 256 * b1) (Z.shiftl (b2 + 256 * b3) 16)) with (b0 + 256 * b1 + 65536 * b2 + 16777216 * b3).
    { destruct (tree_decode call py (t_32 t) (b0 + 256 * b1 + 65536 * b2 + 16777216 * b3) a). reflexivity. }
    rewrite (lor_byte _ _ 16); change (2 ^ 16) with 65536; lia.
Qed.
(*@ex
Example C27_word_ex : In (240 / 8) [29; 30; 31] /\ 2 + 256 * 240 + 65536 * 3 + 16777216 * 128 = 2147741698.
Proof. split; [cbv; auto | reflexivity]. Qed.
@*)

(*@doc C27: too few bytes raise. @*)
Lemma C27_short_proof : forall (H : Type) (call : pyver -> H -> insn -> list (string * bs) -> res insn) py t a b0 b1,
  0 <= b0 < 256 -> 0 <= b1 < 256 -> 
  snd (decode call py t [] a) = Err AssertionError /\
  snd (decode call py t [b0] a) = Err AssertionError /\
  (In (b1 / 8) [29; 30; 31] -> snd (decode call py t [b0; b1] a) = Err UndefinedInstructionError /\
   forall b2, snd (decode call py t [b0; b1; b2] a) = Err UndefinedInstructionError).
Proof.
  intros H call py t a b0 b1 H0 H1. split; [reflexivity|]. split; [reflexivity|]. intro I.
  assert (B : bytes_to_le16 [b0; b1] 0 = Ok (b0 + 256 * b1)).
  { rewrite bytes16_at; [reflexivity | lia | cbn [List.length]; lia | repeat (apply Forall_cons; [assumption|]); apply Forall_nil]. }
  pose proof (prefix_byte b0 b1 H0 H1) as X. cbn [In] in I.
  split; [|intro b2]; unfold decode; cbn [List.length];
    [rewrite B | rewrite (le16_first b0 b1 [b2]); rewrite B];
    (replace (is_32bit_prefix (b0 + 256 * b1)) with true by (rewrite X; lia)); reflexivity.
Qed.
(*@ex
Example C27_short_ex : In (247 / 8) [29; 30; 31] /\ In (232 / 8) [29; 30; 31].
Proof. split; cbv; auto. Qed.
@*)

(*@doc C29: whatever was decoded before, on either Python version, a decode gives the
same result. @*)
Lemma C29_history_proof : forall (H : Type) (call : pyver -> H -> insn -> list (string * bs) -> res insn) t calls py data a,
  snd (decode call py (after call t calls) data a) = snd (decode call py t data a).
Proof.
  intros H call t calls. unfold after. revert t. induction calls as [|[[py0 data0] a0] calls IH]; intros t py data a; [reflexivity|].
  cbn [fold_left]. rewrite IH. apply decode_same.
Qed.
(*@ex
Example C29_history_ex : exists d1 d2 t,
  make_decoder 1 "one" Instruction "0000 0000 a(8)" None [] = Ok d1 /\
  make_decoder 2 "two" Instruction "0001 0000 0000 a(4)" None [] = Ok d2 /\ build [d1; d2] = Ok t /\
  let call := fun (_ : pyver) (h : Z) (i : insn) (_ : list (string * bs)) => Ok i in
  after call t [(Py3, [0; 32], 0)] <> t /\
  snd (decode call Py3 (after call t [(Py3, [0; 32], 0)]) [0; 32] 0) = Err AttributeError.
Proof. do 3 eexists. do 3 (split; [vm_compute; reflexivity|]). split; [discriminate | reflexivity]. Qed.
@*)
