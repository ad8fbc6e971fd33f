(** * Proofs of the statements about the simulator *)
From Verif Require Import SimModel SpecBits BitFacts BitText UtilFacts SpecCpu CpuFacts CpuThms SpecWhole SpecDecoder SpecDisasm SpecFormat DisasmThms FormatFacts FormatThms UtilThms IsaThms ExecFacts ExecWholeThms SpecExec SpecIsa SpecSim SimFacts.
From Coq Require Import Lia.
Local Open Scope string_scope.
Local Open Scope list_scope.
Local Open Scope Z_scope.
Local Open Scope bool_scope.
(*@imports From Verif Require Import SimModel SpecBits SpecCpu SpecWhole SpecDecoder SpecDisasm SpecFormat SpecExec SpecIsa ExecFacts SpecSim SimThms.
From Coq Require Import Lia.
Local Open Scope string_scope.
Local Open Scope list_scope.
Local Open Scope Z_scope.
Local Open Scope bool_scope. @*)

(** ** Step *)
Lemma land_lnot1 : forall v, Z.land v (Z.lnot 1) = v - v mod 2.
Proof.
  intros v. pose proof (Z.div_mod v 2 ltac:(lia)). change 1 with (Z.ones 1).
  rewrite <- Z.ldiff_land, Z.ldiff_ones_r, Z.shiftl_mul_pow2, Z.shiftr_div_pow2 by lia. change (2 ^ 1) with 2. lia.
Qed.
Lemma pc_value : forall c, regs_ok c -> exists b, read_register c (RName "pc") = Ok b /\ Z.land (bs_unsigned b) (Z.lnot 1) = even_pc c.
Proof.
  intros c H. exists (bits 32 (reg c 15)). split; [now apply read_pc|]. rewrite land_lnot1.
  destruct (regs_ok_reg c 15 H) as [_ R]; [left; lia|]. unfold bs_unsigned, bits, even_pc. cbn [bv]. rewrite Z.mod_small by lia. reflexivity.
Qed.

Definition with_tree (s : sim) (t : dtree hid) : sim := mksim (sim_cpu s) t (sim_out s) (sim_soft s).

Lemma step_listing : forall s args code t l r, regs_ok (sim_cpu s) -> read_memory_block (sim_cpu s) (even_pc (sim_cpu s)) 4 = Some code ->
  disasm Py2 (sim_tree s) code (even_pc (sim_cpu s)) = (t, l, r) ->
  handle_step args s =
  match r with
  | Err UndefinedInstructionError => print "Undefined instruction" (with_tree s t)
  | Err e => (with_tree s t, Fail (Raised e))
  | Ok _ =>
    match l with
    | [] => print "No instructions found!" (with_tree s t)
    | i :: _ =>
      match format (mkfmt None []) i with
      | Ok (i', _, text) =>
        match print (fmt_addr (i_address i') ++ ":  " ++ text)%string (with_tree s t) with
        | (s1, Done _) => let '(st, x) := execute Py2 (sim_cpu s) i' in
            (mksim (s_cpu st) (sim_tree s1) (sim_out s1) (sim_soft s1), match x with Ok _ => Done tt | Err e => Fail (Raised e) end)
        | (s1, Fail e) => (s1, Fail e)
        end
      | Err e => (with_tree s t, Fail (Raised e))
      end
    end
  end.
Proof.
  intros s args code t l r R B D. destruct (pc_value _ R) as [b [P V]].
  unfold handle_step, sbind, the_cpu, slift, block, disassemble. cbn [sim_cpu]. rewrite P. rewrite V.
  unfold sbind, the_cpu. rewrite B. unfold sret. rewrite D.
  destruct r as [[]|e]; [|now destruct e].
  destruct l as [|i l]; [reflexivity|]. destruct (format (mkfmt None []) i) as [[[i' f'] text]|e]; [|reflexivity].
  unfold with_tree. destruct (print _ _) as [s1 [u|e]]; [|reflexivity]. destruct (execute Py2 (sim_cpu s) i') as [st x]. unfold set_cpu. cbn. destruct x as [[]|e]; reflexivity.
Qed.


Lemma firstn_In : forall A n (l : list A) x, In x (firstn n l) -> In x l.
Proof. intros A n l x H. rewrite <- (firstn_skipn n l). apply in_or_app. now left. Qed.
Lemma skipn_In : forall A n (l : list A) x, In x (skipn n l) -> In x l.
Proof. intros A n l x H. rewrite <- (firstn_skipn n l). apply in_or_app. now right. Qed.

Lemma block_bytes : forall c a n code, mem_ok c -> 0 < n -> read_memory_block c a n = Some code ->
  bytes code /\ code <> [] /\ Z.of_nat (List.length code) <= n.
Proof.
  intros c a n code M Hn E. destruct (located_or_unmapped c a) as [[i [m L]]|U].
  - rewrite (C34_block_read_proof c a n i m M L ltac:(lia)) in E.
    destruct (located_bounds c a i m M L) as [B1 B2].
    assert (R : region_ok m). { destruct L as [L _]. apply nth_error_In in L. unfold mem_ok in M. rewrite Forall_forall in M. now apply M. }
    destruct R as [F _]. injection E as <-. split; [|split].
    + unfold bytes. rewrite Forall_forall in *. intros x I. apply F. eapply skipn_In, firstn_In, I.
    + intros X. apply (f_equal (@List.length Z)) in X. rewrite firstn_length, skipn_length in X. cbn in X. lia.
    + rewrite firstn_length. lia.
  - unfold read_memory_block in E. rewrite (find_mem_unmapped c a U) in E. discriminate E.
Qed.

Lemma ready_tree : forall s t, ready s -> module_tree t -> ready (with_tree s t).
Proof. intros s t [R _] M. split; [exact R|exact M]. Qed.

Lemma listing_ok_inv : forall py a data i l r, decode_bytes py data a = Ok i -> listing py a data l r ->
  exists l', l = i :: l' /\ listing py (a + i_size i) (skipn (Z.to_nat (i_size i)) data) l' r.
Proof.
  intros py a data i l r D H. inversion H; subst; try (rewrite decode_nil in D; discriminate D); try congruence.
  assert (i0 = i) by congruence. subst i0. eexists. split; [reflexivity|]. assumption.
Qed.
Lemma listing_err_inv : forall py a data e l r, data <> [] -> decode_bytes py data a = Err e -> listing py a data l r ->
  l = [] /\ (r = Err e /\ (e = UndefinedInstructionError -> (4 <= List.length data)%nat) \/ r = Ok tt /\ e = UndefinedInstructionError /\ (List.length data < 4)%nat).
Proof.
  intros py a data e l r N D H. inversion H; subst; try congruence; (split; [reflexivity|]).
  - right. split; [reflexivity|]. split; [congruence|assumption].
  - left. assert (e0 = e) by congruence. subst. split; [reflexivity|assumption].
Qed.
(** A rest of at most two bytes that does not raise. *)
Lemma quiet_listing : forall a rest l r, bytes rest -> (List.length rest <= 2)%nat -> quiet_rest a rest -> listing Py2 a rest l r -> r = Ok tt.
Proof.
  intros a rest l r B L Q H. destruct Q as [->|Q].
  - inversion H; subst; try congruence. rewrite decode_nil in *. discriminate.
  - destruct (decode_bytes Py2 rest a) as [i|e] eqn:D.
    + destruct (listing_ok_inv _ _ _ _ _ _ D H) as [l' [_ H']].
      assert (Z : skipn (Z.to_nat (i_size i)) rest = []). { apply skipn_all2. pose proof (size_pos i). lia. }
      rewrite Z in H'. inversion H'; subst; try congruence. rewrite decode_nil in *. discriminate.
    + destruct e; try contradiction. assert (N : rest <> []) by (intros ->; rewrite decode_nil in D; discriminate D).
      destruct (listing_err_inv _ _ _ _ _ _ N D H) as [_ [[_ X]|[X _]]]; [|exact X]. specialize (X eq_refl). lia.
Qed.

Lemma even_pc_range : forall c, regs_ok c -> 0 <= even_pc c < 16 ^ 8.
Proof.
  intros c H. destruct (regs_ok_reg c 15 H) as [_ R]; [left; lia|]. unfold even_pc. change (16 ^ 8) with (2 ^ 32).
  pose proof (Z.mod_pos_bound (reg c 15) 2 ltac:(lia)). pose proof (Z.mod_le (reg c 15) 2 ltac:(lia) ltac:(lia)). lia.
Qed.

(*@doc C63: if the bytes at the pc, with bit 0 cleared, decode to an instruction and the
bytes behind it, of the four that are read, do not raise, [step] prints its line and
executes exactly this instruction; an exception of the execution comes out.  Missing:
following bytes that raise (C63_nothing, C63_refuted). @*)
Lemma C63_step_partial_proof : forall s args code i, ready s -> cpu_ok (sim_cpu s) ->
  let c := sim_cpu s in
  read_memory_block c (even_pc c) 4 = Some code -> decode_bytes Py2 code (even_pc c) = Ok i ->
  quiet_rest (even_pc c + i_size i) (skipn (Z.to_nat (i_size i)) code) ->
  exists s' text l, handle_step args s = (s', match snd (execute Py2 c i) with Ok _ => Done tt | Err e => Fail (Raised e) end) /\
    sim_cpu s' = s_cpu (fst (execute Py2 c i)) /\ ready s' /\ sim_out s' = sim_out s ++ map Txt l /\
    text_of (mkfmt None []) i = Ok text /\ glue l = the_line ("0x" +++ hexn 8 (even_pc c) +++ ":  " +++ text).
Proof.
  intros s args code i R OK c B D Q. destruct OK as [RO [SO MO]]. fold c in RO, SO, MO.
  destruct (block_bytes c (even_pc c) 4 code MO ltac:(lia) B) as [BC [NE LE]].
  pose proof (C32_listing_proof Py2 (sim_tree s) code (even_pc c) BC (proj2 R)) as LI.
  destruct (disasm Py2 (sim_tree s) code (even_pc c)) as [[t l] r] eqn:DI. destruct LI as [MT LI].
  destruct (listing_ok_inv _ _ _ _ _ _ D LI) as [l' [-> LR]].
  assert (r = Ok tt). { eapply quiet_listing; [| |exact Q|exact LR]; [now apply bytes_skipn|]. rewrite skipn_length. pose proof (size_pos i). lia. }
  subst r. rewrite (step_listing s args code t (i :: l') (Ok tt) RO B DI).
  assert (FB : from_bytes Py2 i) by (exists code, (even_pc c); now split).
  destruct (C60_repeatable_proof Py2 i FB) as [ops [text [cm F]]]. destruct (F (mkfmt None [])) as [F1 _]. rewrite F1.
  destruct (C60_execution_proof Py2 c (mkfmt None []) i _ _ _ F1) as [ops' [_ EX]].
  destruct (execute Py2 c i) as [st x] eqn:E0. fold c. rewrite EX.
  rewrite print_say by exact (proj1 R). cbn [fst snd s_cpu].
  eexists. exists text. eexists. split; [reflexivity|]. cbn [sim_cpu sim_out]. split; [reflexivity|]. split; [split; [reflexivity|exact MT]|].
  split; [reflexivity|]. split; [unfold text_of; rewrite F1; reflexivity|].
  destruct (C30_bytes_proof Py2 code (even_pc c) i BC D) as [_ [A _]]. change (i_address (set_operands ops i)) with (i_address i). rewrite A.
  unfold fmt_addr. rewrite fmt_hexn by (try lia; now apply even_pc_range). cbn [glue]. unfold the_line, newline. rewrite !app_assoc_s. reflexivity.
Qed.
(*@ex
Example C63_step_partial_ex : on_sim (ex_code [17; 32; 0; 34]) (fun s =>
  exists s', handle_step [] s = (s', Done tt) /\ reg (sim_cpu s') 0 = 17 /\ reg (sim_cpu s') 2 = reg (sim_cpu s) 2 /\ reg (sim_cpu s') 15 = 2 /\
  out_text s' = the_line "0x00000000:  2011         movs    r0, #17         ; 0x11").
Proof. vm_compute. eexists. repeat split; reflexivity. Qed.
@*)

(*@doc C63: in every other case nothing is executed: with the pc outside the memory
TypeError; if the bytes at the pc are undefined a message (another one if there are less
than four bytes); if they raise something else, or the bytes behind the first instruction
do, that exception. @*)
Lemma C63_nothing_proof : forall s args, ready s -> cpu_ok (sim_cpu s) ->
  let c := sim_cpu s in
  (unmapped c (even_pc c) -> handle_step args s = (s, Fail (Raised TypeError))) /\
  forall code, read_memory_block c (even_pc c) 4 = Some code ->
  (decode_bytes Py2 code (even_pc c) = Err UndefinedInstructionError ->
    exists s' t, handle_step args s = (s', Done tt) /\ module_tree t /\
      printed (mksim c t (sim_out s) false) (the_line (if 4 <=? Z.of_nat (List.length code) then "Undefined instruction" else "No instructions found!")) s') /\
  (forall e, decode_bytes Py2 code (even_pc c) = Err e -> e <> UndefinedInstructionError ->
    exists t, module_tree t /\ handle_step args s = (mksim c t (sim_out s) false, Fail (Raised e))) /\
  (forall i e, decode_bytes Py2 code (even_pc c) = Ok i ->
    decode_bytes Py2 (skipn (Z.to_nat (i_size i)) code) (even_pc c + i_size i) = Err e -> e <> UndefinedInstructionError ->
    skipn (Z.to_nat (i_size i)) code <> [] ->
    exists t, module_tree t /\ handle_step args s = (mksim c t (sim_out s) false, Fail (Raised e))).
Proof.
  intros s args R OK c. destruct OK as [RO [SO MO]]. fold c in RO, SO, MO. split.
  - intros U. destruct (pc_value c RO) as [b [P V]]. unfold handle_step, sbind, the_cpu, slift, block. fold c. rewrite P. rewrite V.
    unfold sbind, the_cpu. fold c. unfold read_memory_block. rewrite (find_mem_unmapped _ _ U). reflexivity.
  - intros code B. destruct (block_bytes c (even_pc c) 4 code MO ltac:(lia) B) as [BC [NE LE]].
    pose proof (C32_listing_proof Py2 (sim_tree s) code (even_pc c) BC (proj2 R)) as LI.
    destruct (disasm Py2 (sim_tree s) code (even_pc c)) as [[t l] r] eqn:DI. destruct LI as [MT LI].
    rewrite (step_listing s args code t l r RO B DI).
    assert (WT : with_tree s t = mksim c t (sim_out s) false) by (unfold with_tree; rewrite (proj1 R); reflexivity).
    split; [|split].
    + intros D. destruct (listing_err_inv _ _ _ _ _ _ NE D LI) as [-> [[-> X]|[-> [_ X]]]].
      * specialize (X eq_refl). rewrite WT, print_say by reflexivity. eexists. exists t. split; [reflexivity|]. split; [exact MT|].
        replace (4 <=? Z.of_nat (List.length code)) with true by (symmetry; apply Z.leb_le; lia). apply printed_line.
      * rewrite WT, print_say by reflexivity. eexists. exists t. split; [reflexivity|]. split; [exact MT|].
        replace (4 <=? Z.of_nat (List.length code)) with false by (symmetry; apply Z.leb_gt; lia). apply printed_line.
    + intros e D NU. destruct (listing_err_inv _ _ _ _ _ _ NE D LI) as [-> [[-> X]|[_ [X _]]]]; [|congruence].
      exists t. split; [exact MT|]. rewrite WT. destruct e; try reflexivity. congruence.
    + intros i e D DR NU NR. destruct (listing_ok_inv _ _ _ _ _ _ D LI) as [l' [-> LR]].
      destruct (listing_err_inv _ _ _ _ _ _ NR DR LR) as [-> [[-> X]|[_ [X _]]]]; [|congruence].
      exists t. split; [exact MT|]. rewrite WT. destruct e; try reflexivity. congruence.
Qed.
(*@ex
Example C63_nothing_ex : on_sim (ex_code [0; 182; 0; 0]) (fun s => exists s', handle_step [] s = (s', Done tt) /\
  out_text s' = the_line "Undefined instruction") /\
  on_sim (ex_code [0; 182]) (fun s => exists s', handle_step [] s = (s', Done tt) /\ out_text s' = the_line "No instructions found!") /\
  on_sim cpu_new (fun s => snd (handle_step [] s) = Fail (Raised TypeError)).
Proof. vm_compute. repeat split; eexists; split; reflexivity. Qed.
@*)

(*@doc C63 fails: a nop is not executed if the halfword behind it cannot be decoded. @*)
Lemma C63_refuted_proof : exists c code i, cpu_ok c /\ read_memory_block c (even_pc c) 4 = Some code /\
  decode_bytes Py2 code (even_pc c) = Ok i /\ reg (s_cpu (fst (execute Py2 c i))) 15 = 2 /\
  forall s args, ready s -> sim_cpu s = c -> exists s', handle_step args s = (s', Fail (Raised AttributeError)) /\ sim_cpu s' = c /\ reg c 15 = 0.
Proof.
  assert (OK : cpu_ok (ex_code [0; 191; 0; 184])).
  { destruct C36_fresh_proof as [A [B [C _]]]. unfold cpu_ok, ex_code. split; [|split]; [apply C36_invariant_proof| apply C37_sp_mirror_proof |apply C36_invariant_proof]; try assumption; repeat constructor. }
  assert (B : read_memory_block (ex_code [0; 191; 0; 184]) (even_pc (ex_code [0; 191; 0; 184])) 4 = Some [0; 191; 0; 184]) by (vm_compute; reflexivity).
  assert (D : exists i, decode_bytes Py2 [0; 191; 0; 184] (even_pc (ex_code [0; 191; 0; 184])) = Ok i /\ i_size i = 2 /\
    reg (s_cpu (fst (execute Py2 (ex_code [0; 191; 0; 184]) i))) 15 = 2) by (eexists; split; [vm_compute; reflexivity|]; split; vm_compute; reflexivity).
  assert (P : even_pc (ex_code [0; 191; 0; 184]) = 0 /\ reg (ex_code [0; 191; 0; 184]) 15 = 0) by (vm_compute; split; reflexivity).
  assert (DR : decode_bytes Py2 [0; 184] 2 = Err AttributeError) by (vm_compute; reflexivity).
  destruct D as [i [D [SZ X]]]. destruct P as [P P'].
  generalize dependent (ex_code [0; 191; 0; 184]). intros c OK B D X P P'.
  exists c, [0; 191; 0; 184], i. split; [exact OK|]. split; [exact B|]. split; [exact D|]. split; [exact X|].
  intros s args R <-. destruct (C63_nothing_proof s args R OK) as [_ Y]. destruct (Y _ B) as [_ [_ Y']].
  destruct (Y' i AttributeError D) as [t [MT E]].
  - rewrite SZ, P. exact DR.
  - discriminate.
  - rewrite SZ. discriminate.
  - rewrite E. eexists. split; [reflexivity|]. split; [reflexivity|exact P'].
Qed.

(** ** Arguments *)
Lemma convert_clean : forall a b, clean a = clean b -> convert_value a = convert_value b.
Proof. intros a b E. unfold convert_value. change (str_filter _ (lower a)) with (clean a). change (str_filter _ (lower b)) with (clean b). now rewrite E. Qed.

Lemma tame_head : forall t c l, tame_text t -> chars t = c :: l -> Ascii.eqb c "[" = false.
Proof. intros t c l T E. unfold tame_text in T. rewrite E in T. inversion T; subst. now apply tame_split. Qed.

(*@doc C68: decimal, hexadecimal, octal (old and new style) and binary numbers, with or
without sign, have their value; nothing is printed. @*)
Lemma C68_integer_proof : forall t n s, integer t n -> convert_value t s = (s, Done n).
Proof.
  intros t n s H. destruct (integer_ok t n H) as [I [T [c [l [E _]]]]]. unfold convert_value.
  change (str_filter _ (lower t)) with (clean t). rewrite (clean_tame t T). cbv zeta. rewrite E, (tame_head t c l T E).
  unfold sbind, sret, register_or_int. rewrite (integer_not_register t n H). unfold slift. now rewrite I.
Qed.
(*@ex
Example C68_integer_ex : integer "0x1f" 31 /\ integer "-0b101" (-5) /\ integer "017" 15 /\ integer "1234" 1234 /\
  forall s, convert_value "0X1_F" s = (s, Done 31) /\ snd (convert_value "08" s) = Fail (Raised ValueError).
Proof.
  assert (D : forall b t n, forallb (fun c => (0 <=? char_digit c) && (char_digit c <? b)) (chars t) = true ->
    be_number b (map char_digit (chars t)) = n -> denotes b t n).
  { intros b t n F N. split; [|exact N]. rewrite forallb_forall in F. apply Forall_forall. intros c I. specialize (F c I). unfold is_base_digit. lia. }
  split; [apply int_plain, (num_hex "1f"); [discriminate|apply D; reflexivity]|].
  split; [apply (int_minus "0b101" 5), (num_bin "101"); [discriminate|apply D; reflexivity]|].
  split; [apply int_plain, (num_old "17"); [discriminate|apply D; reflexivity]|].
  split; [|intros s; split; vm_compute; reflexivity].
  apply int_plain, num_dec. split; [apply D; reflexivity|]. split; [discriminate|]. intros _. exists "1"%char, "234". split; [reflexivity|discriminate].
Qed.
@*)

Lemma lower_lower : forall s, lower (lower s) = lower s.
Proof.
  induction s as [|c s IH]; [reflexivity|]. cbn [lower]. rewrite IH. f_equal.
  pose proof (all_ascii (fun c => Ascii.eqb (lower_char (lower_char c)) (lower_char c)) ltac:(vm_compute; reflexivity) c) as A. now apply Ascii.eqb_eq in A.
Qed.

(*@doc C68: upper and lower case are the same, and underscores can be put anywhere. @*)
Lemma C68_spelling_proof : forall a b s,
  convert_value (a +++ "_" +++ b) s = convert_value (a +++ b) s /\ convert_value (lower a) s = convert_value a s.
Proof.
  intros a b s. split.
  - rewrite (convert_clean (a +++ "_" +++ b) (a +++ b)); [reflexivity|]. rewrite !clean_app. reflexivity.
  - rewrite (convert_clean (lower a) a); [reflexivity|]. unfold clean. now rewrite lower_lower.
Qed.
(*@ex
Example C68_spelling_ex : forall s, convert_value "1_000" s = (s, Done 1000) /\ convert_value "0xABCD_EF01" s = (s, Done 2882400001).
Proof. intros s. split; vm_compute; reflexivity. Qed.
@*)

Lemma base_clean : forall c x v pre, base_value c x v pre -> clean x = lower x /\ tame_text (lower x) /\ lower x <> "" /\
  (is_register (lower x) = false /\ int_base0 (lower x) = Ok v /\ pre = "" \/
   exists k, dict_get String.eqb (lower x) CORE_REGISTER = Some k /\ v = reg c k /\ pre = the_line (lower x +++ " = 0x" +++ hexn 8 v)).
Proof.
  intros c x v pre H. inversion H as [t n I|t k R]; subst.
  - destruct (integer_ok x v I) as [N [T [a [l [E _]]]]].
    assert (L : lower x = x).
    { clear -T. induction x as [|a x IH]; [reflexivity|]. inversion T as [|? ? A T']; subst. cbn [lower]. rewrite IH by exact T'. f_equal. now apply tame_split. }
    rewrite L. split; [now apply clean_tame|]. split; [exact T|]. split; [intros ->; discriminate E|]. left.
    split; [now apply (integer_not_register x v)|]. split; [exact N|reflexivity].
  - unfold register_name_to_index in R. destruct (register_names _ _ R) as [HL T].
    split; [|split; [exact T|]; split; [intros E; rewrite E in HL; discriminate HL|]].
    + rewrite <- (clean_tame _ T) at 1. unfold clean. now rewrite lower_lower.
    + right. exists k. repeat split; assumption.
Qed.

Lemma is_register_get : forall s k, dict_get String.eqb s CORE_REGISTER = Some k -> is_register s = true.
Proof. intros s k H. unfold is_register. now rewrite H. Qed.

(** The value part of the conversion. *)
Lemma value_part : forall s x v pre, ready s -> regs_ok (sim_cpu s) -> base_value (sim_cpu s) x v pre ->
  exists l, register_or_int (lower x) s = (say l s, Done v) /\ glue l = pre.
Proof.
  intros s x v pre R RO H. destruct (base_clean _ _ _ _ H) as [_ [_ [_ [[NR [I ->]]|[k [RG [-> ->]]]]]]].
  - exists []. unfold register_or_int. rewrite NR. unfold slift. rewrite I, say_nil by exact (proj1 R). split; reflexivity.
  - unfold register_or_int. rewrite (is_register_get _ _ RG). unfold sbind, the_cpu, slift, sret.
    assert (K : register_name_to_index (RName (lower x)) = Some k) by (unfold register_name_to_index; now rewrite lower_lower).
    assert (CK : core k) by (destruct C36_names_proof as [_ [_ [_ [_ [X _]]]]]; now apply (X (lower x))).
    rewrite (read_index _ _ k K RO CK). destruct (regs_ok_reg _ k RO CK) as [_ RG2].
    cbv zeta. unfold bs_unsigned, bits. cbn [bv]. rewrite Z.mod_small by lia.
    rewrite print_say by exact (proj1 R). eexists. split; [reflexivity|].
    rewrite fmt_hexn by (try lia; change (16 ^ 8) with (2 ^ 32); lia). cbn [glue]. unfold the_line, newline. rewrite !app_assoc_s. reflexivity.
Qed.

(*@doc C68: a register name, in any case, means the content of the register, which is also
printed. @*)
Lemma C68_register_proof : forall s name k, ready s -> regs_ok (sim_cpu s) -> register_name_to_index (RName name) = Some k ->
  exists s', convert_value name s = (s', Done (reg (sim_cpu s) k)) /\
    printed s (the_line (lower name +++ " = 0x" +++ hexn 8 (reg (sim_cpu s) k))) s'.
Proof.
  intros s name k R RO K. pose proof (base_register (sim_cpu s) name k K) as B.
  destruct (base_clean _ _ _ _ B) as [C [T [NE _]]]. destruct (value_part s name _ _ R RO B) as [l [E G]].
  exists (say l s). split; [|rewrite <- G; apply say_printed]. unfold convert_value. change (str_filter _ (lower name)) with (clean name). rewrite C. cbv zeta.
  destruct (chars (lower name)) as [|c l0] eqn:CH; [destruct (lower name); [congruence|discriminate CH]|]. rewrite (tame_head _ _ _ T CH).
  unfold sbind at 1, sret at 1. unfold sbind at 1. rewrite E. reflexivity.
Qed.
(*@ex
Example C68_register_ex : on_sim ex_state (fun s => exists s', convert_value "SP" s = (s', Done (reg ex_state 13)) /\
  out_text s' = the_line "sp = 0x00000030").
Proof. vm_compute. eexists. split; reflexivity. Qed.
@*)

(*@doc C68: a number or register in brackets, with or without an offset, means the word at
that address, lowest byte first; it is printed.  With less than four bytes there the
conversion raises IndexError, outside the memory TypeError. @*)
Lemma C68_deref_proof : forall s x a pre arg off, ready s -> cpu_ok (sim_cpu s) -> base_value (sim_cpu s) x a pre -> bracketed x arg off ->
  (forall i m, located (sim_cpu s) (a + off) i m ->
    match take_cells (sim_cpu s) i (a + off - m_start m) 4 with
    | Some l => exists s' o, convert_value arg s = (s', Done (le_number l)) /\ dec_text o off /\
        printed s (pre +++ the_line ("[" +++ lower x +++ "," +++ o +++ "] = 0x" +++ hexn 8 (le_number l))) s'
    | None => exists s', convert_value arg s = (s', Fail (Raised IndexError)) /\ printed s pre s'
    end) /\
  (unmapped (sim_cpu s) (a + off) -> exists s', convert_value arg s = (s', Fail (Raised TypeError)) /\ printed s pre s').
Proof.
  intros s x a pre arg off R [RO [SO MO]] B BR.
  destruct (base_clean _ _ _ _ B) as [C [T [NE _]]]. destruct (value_part s x _ _ R RO B) as [l [E G]].
  assert (CA : exists rest, clean arg = "[" +++ rest /\ 
     (forall s0, bracket_parts (clean arg) s0 = (s0, Done (lower x, off)))).
  { inversion BR as [X1 X2|o n I X1 X2]; subst.
    - exists (lower x +++ "]"). rewrite !clean_app, C. split; [reflexivity|]. intros s0. unfold bracket_parts. cbv zeta.
      change (clean "[") with "[". change (clean "]") with "]". rewrite inner_brackets. unfold split. rewrite split_on_none by now apply tame_no_comma. reflexivity.
    - destruct (integer_ok o off I) as [IN [TO _]].
      exists (lower x +++ "," +++ o +++ "]"). rewrite !clean_app, C, (clean_tame o TO). split; [reflexivity|]. intros s0. unfold bracket_parts. cbv zeta.
      change (clean "[") with "[". change (clean "]") with "]". change (clean ",") with ",".
      assert (IB : inner ("[" +++ lower x +++ "," +++ o +++ "]") = lower x +++ "," +++ o).
      { rewrite <- (inner_brackets (lower x +++ "," +++ o)). now rewrite !app_assoc_s. }
      rewrite IB. unfold split. rewrite !chars_app. cbn [chars app]. rewrite split_on_app by now apply tame_no_comma.
      rewrite split_on_none by now apply tame_no_comma. cbn [map]. rewrite !of_chars_chars.
      unfold sbind, slift, sret. rewrite (strip_tame o TO), IN, (strip_tame _ T). reflexivity. }
  destruct CA as [rest [CE CS]].
  assert (HD : convert_value arg s = (do* data := block (a + off) 4 in
      do* value := slift (bytes_to_le32 data 0) in
      print ("[" ++ lower x ++ "," ++ fmt_d off ++ "] = 0x" ++ fmt_0x 8 value)%string ;; sret value) (say l s)).
  { unfold convert_value. change (str_filter _ (lower arg)) with (clean arg). cbv zeta.
    replace (chars (clean arg)) with ("["%char :: chars rest) by (rewrite CE; reflexivity). rewrite Ascii.eqb_refl.
    unfold sbind at 1. rewrite CS. unfold sbind at 1. rewrite E. reflexivity. }
  split.
  - intros i m L. 
    assert (RB : read_memory_block (sim_cpu s) (a + off) 4 = Some (firstn 4 (skipn (Z.to_nat (a + off - m_start m)) (m_data m))))
      by (exact (C34_block_read_proof (sim_cpu s) (a + off) 4 i m MO L ltac:(lia))).
    pose proof (take_cells_slice (sim_cpu s) i m 4 (a + off - m_start m) (proj1 L) ltac:(destruct L as [_ [[L _] _]]; lia)) as TC. cbv zeta in TC.
    assert (HV : convert_value arg s = (do* value := slift (bytes_to_le32 (firstn 4 (skipn (Z.to_nat (a + off - m_start m)) (m_data m))) 0) in
      print ("[" ++ lower x ++ "," ++ fmt_d off ++ "] = 0x" ++ fmt_0x 8 value)%string ;; sret value) (say l s)).
    { rewrite HD. unfold sbind at 1, block. unfold sbind at 1, the_cpu. change (sim_cpu (say l s)) with (sim_cpu s). rewrite RB. reflexivity. }
    rewrite HV. clear HV.
    assert (BY : bytes (firstn 4 (skipn (Z.to_nat (a + off - m_start m)) (m_data m)))) by (apply (block_bytes (sim_cpu s) (a + off) 4 _ MO ltac:(lia) RB)).
    assert (LD : (List.length (firstn 4 (skipn (Z.to_nat (a + off - m_start m)) (m_data m))) <= 4)%nat) by (rewrite firstn_length; lia).
    clear RB. revert TC BY LD.
    generalize (firstn 4 (skipn (Z.to_nat (a + off - m_start m)) (m_data m))). intros d TC BY LD. rewrite TC.
    destruct (Nat.eqb_spec (List.length d) 4) as [L4|N4]; cbv iota.
    + assert (V : bytes_to_le32 d 0 = Ok (le_number d)).
      { destruct d as [|b0 [|b1 [|b2 [|b3 [|? ?]]]]]; try discriminate L4.
        exact (proj2 (C21_read_proof [b0; b1; b2; b3] 0 ltac:(lia) BY) ltac:(cbn; lia)). }
      unfold sbind at 1, slift. rewrite V. unfold sbind at 1. rewrite print_say by reflexivity.
      assert (RV : 0 <= le_number d < 16 ^ 8).
      { destruct d as [|b0 [|b1 [|b2 [|b3 [|? ?]]]]]; try discriminate L4. unfold bytes in BY.
        repeat match goal with H : Forall _ (_ :: _) |- _ => inversion H; clear H; subst end. cbn [le_number]. lia. }
      unfold sret. rewrite say_say. eexists. exists (fmt_d off). split; [reflexivity|]. split; [apply fmt_d_text|].
      rewrite fmt_hexn by (try lia; exact RV). 
      pose proof (say_printed (l ++ ["[" +++ lower x +++ "," +++ fmt_d off +++ "] = 0x" +++ hexn (Z.to_nat 8) (le_number d); newline]) s) as PS.
      rewrite glue_app, G in PS. exact PS.
    + unfold sbind at 1, slift at 1. rewrite (proj2 (C21_short_proof d 0 ltac:(lia))) by lia. eexists. split; [reflexivity|]. rewrite <- G. apply say_printed.
  - intros U. rewrite HD. unfold sbind at 1, block. unfold sbind at 1, the_cpu. change (sim_cpu (say l s)) with (sim_cpu s).
    unfold read_memory_block. rewrite (find_mem_unmapped _ _ U). unfold sfail. eexists. split; [reflexivity|]. rewrite <- G. apply say_printed.
Qed.
(*@ex
Example C68_deref_ex : on_sim (ex_code [1; 2; 3; 4; 5; 6; 7; 8]) (fun s => exists s', convert_value "[R0,+0x3]" s = (s', Done 117835012) /\
  out_text s' = the_line "r0 = 0x00000000" +++ the_line "[r0,3] = 0x07060504" /\
  snd (convert_value "[5]" s) = Fail (Raised IndexError) /\ snd (convert_value "[8]" s) = Fail (Raised TypeError)).
Proof. vm_compute. eexists. repeat split; reflexivity. Qed.
@*)

(*@doc C68, all forms of an argument: it has its value, and only what is expected is
printed. @*)
Lemma C68_argument_proof : forall s t v pre, ready s -> cpu_ok (sim_cpu s) -> argument (sim_cpu s) t v pre ->
  exists s', convert_value t s = (s', Done v) /\ printed s pre s'.
Proof.
  intros s t v pre R OK H. remember (sim_cpu s) as c eqn:C.
  induction H as [t v pre B|x a pre t off i m l o B BR L T O|t v pre H IH|a b v pre H IH]; subst c.
  - inversion B as [t' n I|t' k K]; subst.
    + exists s. split; [now apply C68_integer_proof|]. pose proof (say_printed [] s) as P. rewrite say_nil in P by exact (proj1 R). exact P.
    + apply C68_register_proof; [exact R|exact (proj1 OK)|exact K].
  - destruct (C68_deref_proof s x a pre t off R OK B BR) as [D _]. specialize (D i m L). rewrite T in D.
    destruct D as [s' [o' [E [O' P]]]]. exists s'. split; [exact E|]. rewrite (dec_text_unique o o' off O O'). exact P.
  - destruct IH as [s' [E P]]. exists s'. split; [|exact P]. rewrite <- E. symmetry. apply (C68_spelling_proof t "").
  - destruct IH as [s' [E P]]. exists s'. split; [|exact P]. rewrite <- E. apply C68_spelling_proof.
Qed.
(*@ex
Example C68_argument_ex : argument ex_state "R1_3" (reg ex_state 13) (the_line "r13 = 0x00000030").
Proof.
  apply (arg_underscore _ "R1" "3"), arg_base.
  replace (the_line "r13 = 0x00000030") with (the_line (lower "R13" +++ " = 0x" +++ hexn 8 (reg ex_state 13))) by (vm_compute; reflexivity).
  apply (base_register _ "R13" 13). reflexivity.
Qed.
@*)

(** ** Memory *)
Lemma as_bytes_8 : forall l, bytes l -> as_bytes 8 l = l.
Proof.
  unfold as_bytes. change (Z.to_nat (8 / 8)) with 1%nat. cbn [firstn map]. induction l as [|v l IH]; intros B; [reflexivity|].
  inversion B; subst. cbn [flat_map app]. rewrite IH by assumption. rewrite Z.pow_0_r, Z.div_1_r, Z.mod_small by lia. reflexivity.
Qed.
Lemma as_bytes_16 : forall l, as_bytes 16 l = u16leListToByteList l.
Proof.
  intros l. unfold as_bytes, u16leListToByteList. change (Z.to_nat (16 / 8)) with 2%nat. cbn [firstn map]. apply flat_map_ext. intros v.
  rewrite land_255, byte_of by lia. rewrite Z.pow_0_r, Z.div_1_r. reflexivity.
Qed.
Lemma as_bytes_32 : forall l, as_bytes 32 l = u32leListToByteList l.
Proof.
  intros l. unfold as_bytes, u32leListToByteList. change (Z.to_nat (32 / 8)) with 4%nat. cbn [firstn map]. apply flat_map_ext. intros v.
  rewrite !byte_of by lia. reflexivity.
Qed.
Lemma as_bytes_length : forall w l, width_ok w -> Z.of_nat (List.length (as_bytes w l)) = w / 8 * Z.of_nat (List.length l).
Proof.
  intros w l [->|[->| ->]]; unfold as_bytes; [change (Z.to_nat (8 / 8)) with 1%nat; change (8 / 8) with 1|change (Z.to_nat (16 / 8)) with 2%nat; change (16 / 8) with 2|change (Z.to_nat (32 / 8)) with 4%nat; change (32 / 8) with 4];
    cbn [firstn map]; induction l as [|v l IH]; try reflexivity; cbn [flat_map app List.length]; lia.
Qed.
Lemma as_bytes_range : forall w l, bytes (as_bytes w l).
Proof.
  intros w l. unfold as_bytes, bytes. apply Forall_flat_map. apply Forall_forall. intros v _. apply Forall_map, Forall_forall. intros k _. apply Z.mod_pos_bound. lia.
Qed.

(** The units of a width in a list of bytes, as the read command forms them. *)
Definition to_units (w : Z) (d : list Z) : res (list Z) :=
  if w =? 8 then Ok d else if w =? 16 then byteListToU16leList d else byteListToU32leList Py2 d.
Lemma to_units_ok : forall w d, width_ok w -> bytes d ->
  exists items rest, d = as_bytes w items ++ rest /\ Z.of_nat (List.length rest) < w / 8 /\ Forall (unit_range w) items /\
    (if (w =? 16) && negb (List.length rest =? 0)%nat then to_units w d = Err IndexError else to_units w d = Ok items).
Proof.
  intros w d [->|[->| ->]] B; unfold to_units; cbn [Z.eqb Pos.eqb andb].
  - exists d, []. rewrite as_bytes_8, app_nil_r by exact B. split; [reflexivity|]. split; [cbn; lia|]. split; [exact B|reflexivity].
  - destruct (C21_list16_bytes_proof d B) as [EV OD]. destruct (Z.even (Z.of_nat (List.length d))) eqn:E.
    + destruct (EV eq_refl) as [u [U [F A]]]. exists u, []. rewrite as_bytes_16, A, app_nil_r. split; [reflexivity|]. split; [cbn; lia|]. split; [exact F|exact U].
    + assert (N : d <> []) by (intros ->; discriminate E).
      destruct (exists_last N) as [d' [x ->]]. rewrite app_length in E. cbn [List.length] in E. rewrite Nat.add_1_r, Nat2Z.inj_succ, Z.even_succ in E.
      apply Forall_app in B as [B' _]. destruct (C21_list16_bytes_proof d' B') as [EV' _].
      destruct EV' as [u [U [F A]]]; [rewrite <- Z.negb_odd, E; reflexivity|].
      exists u, [x]. rewrite as_bytes_16, A. split; [reflexivity|]. split; [cbn; lia|]. split; [exact F|exact (OD eq_refl)].
  - destruct (C21_list32_bytes_partial_proof d B) as [u [U [F A]]]. exists u, (skipn (4 * (List.length d / 4)) d).
    rewrite as_bytes_32, A, firstn_skipn. split; [reflexivity|]. split; [|split; [exact F|exact U]].
    rewrite skipn_length. pose proof (Nat.div_mod (List.length d) 4 ltac:(lia)). pose proof (Nat.mod_upper_bound (List.length d) 4 ltac:(lia)). change (32 / 8) with 4. lia.
Qed.

Lemma printed_ready : forall s t s', ready s -> printed s t s' -> ready s' /\ sim_cpu s' = sim_cpu s.
Proof. intros s t s' [_ M] [C [T [S _]]]. split; [split; [exact S|rewrite T; exact M]|exact C]. Qed.
Lemma printed_nil : forall s, ready s -> printed s "" s.
Proof. intros s R. pose proof (say_printed [] s) as P. rewrite say_nil in P by exact (proj1 R). exact P. Qed.

Lemma read_args : forall s w a addr pre n count pre', ready s -> cpu_ok (sim_cpu s) -> width_ok w ->
  argument (sim_cpu s) a addr pre -> count_args (sim_cpu s) w n count pre' ->
  exists s2, printed s (pre +++ pre') s2 /\ do_read (a :: n) w s =
    match read_memory_block (sim_cpu s) addr count with
    | Some d => match to_units w d with Ok l => dumpHexData l addr w s2 | Err e => (s2, Fail (Raised e)) end
    | None => (s2, Fail (Raised TypeError))
    end.
Proof.
  intros s w a addr pre n count pre' R OK W A N.
  destruct (C68_argument_proof s a addr pre R OK A) as [s1 [E1 P1]]. destruct (printed_ready _ _ _ R P1) as [R1 C1].
  assert (X : exists s2, match n with [] => sret (w / 8) | x :: _ => convert_value x end s1 = (s2, Done count) /\ printed s1 pre' s2).
  { inversion N as [E|t v p more A' E]; subst.
    - exists s1. split; [reflexivity|now apply printed_nil].
    - rewrite <- C1 in A'. apply C68_argument_proof; [exact R1|rewrite C1; exact OK|exact A']. }
  destruct X as [s2 [E2 P2]]. exists s2. split; [exact (printed_trans _ _ _ _ _ P1 P2)|].
  destruct (printed_ready _ _ _ R1 P2) as [R2 C2]. rewrite <- C1, <- C2. unfold do_read. unfold sbind at 1. rewrite E1.
  unfold sbind at 1. rewrite E2. unfold block. unfold sbind, the_cpu, sret, sfail, slift.
  destruct (read_memory_block (sim_cpu s2) addr count) as [d|]; [|reflexivity].
  unfold to_units. destruct W as [->|[->| ->]]; cbn [Z.eqb Pos.eqb]; [reflexivity|destruct (byteListToU16leList d); reflexivity|destruct (byteListToU32leList Py2 d); reflexivity].
Qed.

(*@doc C64, read: the bytes at the address, at most as many as asked for and as the region
has, are shown as units of the width, lowest byte first; nothing changes.  Bytes behind the
last whole unit are not shown by read32 and make read16 raise IndexError.  Outside the
memory TypeError, and nothing is shown. @*)
Lemma C64_read_proof : forall s w a addr pre n count pre', ready s -> cpu_ok (sim_cpu s) -> width_ok w ->
  argument (sim_cpu s) a addr pre -> count_args (sim_cpu s) w n count pre' -> 
  (forall i m, located (sim_cpu s) addr i m -> 0 <= count -> 
    let d := firstn (Z.to_nat count) (skipn (Z.to_nat (addr - m_start m)) (m_data m)) in
    0 <= addr -> addr + Z.of_nat (List.length d) <= 2 ^ 32 ->
    exists items rest s', d = as_bytes w items ++ rest /\ Z.of_nat (List.length rest) < w / 8 /\ Forall (fun v => 0 <= v < 2 ^ w) items /\
      let bad := (w =? 16) && negb (List.length rest =? 0)%nat in
      do_read (a :: n) w s = (s', if bad then Fail (Raised IndexError) else Done tt) /\
      printed s ((pre +++ pre') +++ (if bad then "" else dump_text w addr items)) s') /\
  (unmapped (sim_cpu s) addr -> exists s', do_read (a :: n) w s = (s', Fail (Raised TypeError)) /\ printed s (pre +++ pre') s') /\
  do_read [] w s = print "Error: no address specified" s.
Proof.
  intros s w a addr pre n count pre' R OK W A N.
  destruct (read_args s w a addr pre n count pre' R OK W A N) as [s2 [P2 E]]. destruct (printed_ready _ _ _ R P2) as [R2 C2].
  split; [|split; [|reflexivity]].
  - intros i m L Hc d Ha Hd. rewrite (C34_block_read_proof _ addr count i m (proj2 (proj2 OK)) L Hc) in E. fold d in E.
    assert (BD : bytes d).
    { destruct OK as [_ [_ MO]]. unfold mem_ok in MO. rewrite Forall_forall in MO. destruct (MO m) as [F _]; [destruct L as [L _]; eapply nth_error_In, L|].
      unfold bytes, d. rewrite Forall_forall in *. intros x I. apply F. eapply skipn_In, firstn_In, I. }
    destruct (to_units_ok w d W BD) as [items [rest [D [LR [F U]]]]]. exists items, rest.
    cbv zeta. destruct ((w =? 16) && negb (List.length rest =? 0)%nat) eqn:BAD; rewrite U in E.
    + exists s2. rewrite app_nil_s. repeat split; try assumption; apply P2.
    + assert (LI : Z.of_nat (List.length items) <= Z.of_nat (List.length d)).
      { rewrite D, app_length, Nat2Z.inj_add, as_bytes_length by exact W. destruct W as [->|[->| ->]]; [change (8 / 8) with 1|change (16 / 8) with 2|change (32 / 8) with 4]; lia. }
      destruct (dump_items_ok items w addr 0 true s2 W ltac:(lia)) as [ps [E3 G]]; try assumption; try lia.
      { destruct W as [->|[->| ->]]; reflexivity. } { exact (proj1 R2). }
      unfold dumpHexData in E. rewrite E3 in E. eexists. split; [exact D|]. split; [exact LR|]. split; [exact F|]. split; [exact E|].
      eapply printed_trans; [exact P2|]. fold (say ps s2). unfold dump_text. pose proof (say_printed ps s2) as PS. rewrite G in PS.
      destruct items; exact PS.
  - intros U. rewrite E. unfold read_memory_block. rewrite (find_mem_unmapped _ _ U). exists s2. split; [reflexivity|exact P2].
Qed.
(*@ex
Example C64_read_ex : on_sim (ex_code [1; 2; 3; 4; 5; 6; 7; 8; 9]) (fun s =>
  (exists s', do_read ["1"; "r0"] 8 s = (s', Done tt) /\ out_text s' = the_line "r0 = 0x00000000") /\
  (exists s', do_read ["1"; "6"] 16 s = (s', Done tt) /\ out_text s' = the_line "00000001:  0302 0504 0706") /\
  (exists s', do_read ["1"; "6"] 32 s = (s', Done tt) /\ out_text s' = the_line "00000001:  05040302") /\
  (exists s', do_read ["7"] 8 s = (s', Done tt) /\ out_text s' = the_line "00000007:  08") /\
  snd (do_read ["6"; "9"] 16 s) = Fail (Raised IndexError)).
Proof. vm_compute. split; [|split; [|split; [|split]]]; try (eexists; split; reflexivity); reflexivity. Qed.
@*)

Lemma byte_args_ok : forall ds s data pre, ready s -> cpu_ok (sim_cpu s) -> arguments (sim_cpu s) ds data pre -> bytes data ->
  exists s', byte_args ds s = (s', Done data) /\ printed s pre s'.
Proof.
  induction ds as [|t ds IH]; intros s data pre R OK A B; inversion A as [|t' v p ts vs pres A1 A2]; subst.
  - exists s. split; [reflexivity|now apply printed_nil].
  - inversion B as [|? ? V B']; subst. destruct (C68_argument_proof s t v p R OK A1) as [s1 [E1 P1]].
    destruct (printed_ready _ _ _ R P1) as [R1 C1]. rewrite <- C1 in OK, A2.
    destruct (IH s1 vs pres R1 OK A2 B') as [s2 [E2 P2]]. exists s2. split; [|exact (printed_trans _ _ _ _ _ P1 P2)].
    cbn [byte_args]. unfold sbind at 1. rewrite E1. unfold byte_ok. replace ((0 <=? v) && (v <? 256)) with true by lia.
    unfold sbind. rewrite E2. reflexivity.
Qed.
Lemma byte_args_bad : forall ds s data pre, ready s -> cpu_ok (sim_cpu s) -> arguments (sim_cpu s) ds data pre -> ~ bytes data ->
  exists s' t, byte_args ds s = (s', Fail (Raised ValueError)) /\ printed s t s'.
Proof.
  induction ds as [|t ds IH]; intros s data pre R OK A B; inversion A as [|t' v p ts vs pres A1 A2]; subst.
  - exfalso. apply B. constructor.
  - destruct (C68_argument_proof s t v p R OK A1) as [s1 [E1 P1]]. destruct (printed_ready _ _ _ R P1) as [R1 C1]. rewrite <- C1 in OK, A2.
    cbn [byte_args]. unfold sbind at 1. rewrite E1. unfold byte_ok. destruct ((0 <=? v) && (v <? 256)) eqn:V.
    + destruct (IH s1 vs pres R1 OK A2) as [s2 [tx [E2 P2]]]; [intros X; apply B; constructor; [lia|exact X]|].
      exists s2, (p +++ tx). split; [|exact (printed_trans _ _ _ _ _ P1 P2)]. unfold sbind. rewrite E2. reflexivity.
    + exists s1, p. split; [reflexivity|exact P1].
Qed.

Lemma write_data : forall s w a addr pre ds data pres, ready s -> cpu_ok (sim_cpu s) -> width_ok w -> ds <> [] ->
  argument (sim_cpu s) a addr pre -> arguments (sim_cpu s) ds data pres -> bytes data ->
  exists s2, printed s (pre +++ pres) s2 /\ do_write (a :: ds) w s =
    match write_memory_block (sim_cpu s) addr (as_bytes w data) with
    | Ok c' => (on_cpu s2 c', Done tt) | Err e => (s2, Fail (Raised e))
    end.
Proof.
  intros s w a addr pre ds data pres R OK W NE A D B.
  destruct (C68_argument_proof s a addr pre R OK A) as [s1 [E1 P1]]. destruct (printed_ready _ _ _ R P1) as [R1 C1].
  assert (OK1 : cpu_ok (sim_cpu s1)) by (rewrite C1; exact OK). assert (D1 : arguments (sim_cpu s1) ds data pres) by (rewrite C1; exact D).
  destruct (byte_args_ok ds s1 data pres R1 OK1 D1 B) as [s2 [E2 P2]]. exists s2. split; [exact (printed_trans _ _ _ _ _ P1 P2)|].
  destruct (printed_ready _ _ _ R1 P2) as [R2 C2]. unfold do_write. unfold sbind at 1. rewrite E1. destruct ds as [|d ds]; [congruence|].
  unfold sbind at 1. rewrite E2. unfold sbind, the_cpu, slift, set_cpu. rewrite C2, C1.
  replace (if w =? 8 then data else if w =? 16 then u16leListToByteList data else u32leListToByteList data) with (as_bytes w data).
  - destruct (write_memory_block (sim_cpu s) addr (as_bytes w data)) as [c'|e]; reflexivity.
  - destruct W as [->|[->| ->]]; cbn [Z.eqb Pos.eqb]; [now apply as_bytes_8|apply as_bytes_16|apply as_bytes_32].
Qed.

(*@doc C64, write: bytes given as data are stored as units of the width, lowest byte first,
from the address on, and nothing else changes; outside the memory nothing is stored, and
without data there is a message. @*)
Lemma C64_write_proof : forall s w a addr pre ds data pres, ready s -> cpu_ok (sim_cpu s) -> width_ok w -> ds <> [] ->
  argument (sim_cpu s) a addr pre -> arguments (sim_cpu s) ds data pres -> bytes data ->
  (forall i m, located (sim_cpu s) addr i m ->
    exists c' s', do_write (a :: ds) w s = (s', Done tt) /\ printed (on_cpu s c') (pre +++ pres) s' /\
      c_regs c' = c_regs (sim_cpu s) /\ layout c' = layout (sim_cpu s) /\ mem_ok c' /\
      forall j o, cell c' j o =
        let off := addr - m_start m in let units := as_bytes w data in
        if (Nat.eqb j i && (off <=? o) && (o <? off + Z.of_nat (List.length units)))%bool
        then nth_error units (Z.to_nat (o - off)) else cell (sim_cpu s) j o) /\
  (unmapped (sim_cpu s) addr -> exists s', do_write (a :: ds) w s = (s', Done tt) /\ printed s (pre +++ pres) s') /\
  (exists s', do_write [a] w s = (s', Done tt) /\ printed s (pre +++ the_line "Error: no data for write") s') /\
  do_write [] w s = print "Error: no address specified" s.
Proof.
  intros s w a addr pre ds data pres R OK W NE A D B.
  destruct (write_data s w a addr pre ds data pres R OK W NE A D B) as [s2 [P2 E]].
  split; [|split; [|split; [|reflexivity]]].
  - intros i m L. destruct (C34_block_proof _ addr (as_bytes w data) i m (proj2 (proj2 OK)) L (as_bytes_range w data)) as [c' [EW [_ [MO [LA [RG CE]]]]]].
    rewrite EW in E. exists c', (on_cpu s2 c'). split; [exact E|]. split; [|repeat split; assumption].
    destruct P2 as [_ [T [S [l [O G]]]]]. repeat split; [exact T|exact S|]. exists l. split; assumption.
  - intros U. rewrite (proj1 (proj2 (C35_unmapped_proof _ addr (NInt 0) 8 (as_bytes w data) 0 U))) in E. 
    exists (on_cpu s2 (sim_cpu s)). split; [exact E|]. destruct P2 as [_ [T [S [l [O G]]]]]. repeat split; [exact T|exact S|]. exists l. split; assumption.
  - destruct (C68_argument_proof s a addr pre R OK A) as [s1 [E1 P1]]. destruct (printed_ready _ _ _ R P1) as [R1 _].
    unfold do_write. unfold sbind at 1. rewrite E1. rewrite print_say by exact (proj1 R1). eexists. split; [reflexivity|].
    eapply printed_trans; [exact P1|]. apply printed_line.
Qed.
(*@ex
Example C64_write_ex : on_sim (ex_code [1; 2; 3; 4; 5; 6; 7; 8]) (fun s =>
  (exists s', do_write ["2"; "0x10"; "0xff"] 8 s = (s', Done tt) /\ map m_data (c_mem (sim_cpu s')) = [[1; 2; 16; 255; 5; 6; 7; 8]]) /\
  (exists s', do_write ["2"; "0x10"; "0xff"] 16 s = (s', Done tt) /\ map m_data (c_mem (sim_cpu s')) = [[1; 2; 16; 0; 255; 0; 7; 8]])).
Proof. vm_compute. split; eexists; split; reflexivity. Qed.
@*)

(*@doc C64: after writing bytes the read command of the same width shows them.  Missing:
units above 255 for widths 16 and 32 (C64_limit, C64_refuted), and addresses where the
column would not fit into eight digits. @*)
Lemma C64_roundtrip_partial_proof : forall s w a addr ds data pres n i m, ready s -> cpu_ok (sim_cpu s) -> width_ok w -> ds <> [] ->
  integer a addr -> arguments (sim_cpu s) ds data pres -> bytes data ->
  integer n (w / 8 * Z.of_nat (List.length data)) -> located (sim_cpu s) addr i m ->
  0 <= addr -> addr + w / 8 * Z.of_nat (List.length data) <= 2 ^ 32 ->
  exists s' s'', do_write (a :: ds) w s = (s', Done tt) /\ do_read [a; n] w s' = (s'', Done tt) /\
    printed s' (dump_text w addr data) s''.
Proof.
  intros s w a addr ds data pres n i m R OK W NE A D B N L H0 H1.
  destruct (write_data s w a addr "" ds data pres R OK W NE (arg_base _ _ _ _ (base_integer _ _ _ A)) D B) as [s2 [P2 E]].
  destruct (C34_block_proof _ addr (as_bytes w data) i m (proj2 (proj2 OK)) L (as_bytes_range w data)) as [c' [EW [RB [MO [LA [RG CE]]]]]].
  rewrite EW in E. exists (on_cpu s2 c'). 
  destruct (printed_ready _ _ _ R P2) as [R2 C2].
  assert (R' : ready (on_cpu s2 c')) by (split; [exact (proj1 R2)|exact (proj2 R2)]).
  assert (OK' : cpu_ok c').
  { destruct OK as [RO [SO _]]. split; [|split; [|exact MO]]. - intros k K. rewrite RG. now apply RO. - unfold sp_ok, reg in *. rewrite RG. exact SO. }
  destruct (read_args (on_cpu s2 c') w a addr "" [n] (w / 8 * Z.of_nat (List.length data)) "" R' OK' W) as [s3 [P3 E3]];
    [apply arg_base, base_integer, A|apply count_given, arg_base, base_integer, N|].
  cbn [sim_cpu on_cpu] in E3. rewrite as_bytes_length in RB by exact W. rewrite RB in E3.
  assert (F : Forall (unit_range w) data).
  { eapply Forall_impl; [|exact B]. cbn beta. intros v V. unfold unit_range. destruct W as [->|[->| ->]]; cbn; lia. }
  assert (U : to_units w (as_bytes w data) = Ok data).
  { unfold to_units. destruct W as [->|[->| ->]]; cbn [Z.eqb Pos.eqb]; [now rewrite as_bytes_8|rewrite as_bytes_16; now apply C21_list16_units_proof|rewrite as_bytes_32; now apply C21_list32_units_partial_proof]. }
  rewrite U in E3. destruct (printed_ready _ _ _ R' P3) as [R3 C3].
  destruct (dump_items_ok data w addr 0 true s3 W ltac:(lia)) as [ps [E4 G]]; try assumption; try lia.
  { destruct W as [->|[->| ->]]; reflexivity. } { exact (proj1 R3). } { destruct W as [->|[->| ->]]; [change (8 / 8) with 1 in H1|change (16 / 8) with 2 in H1|change (32 / 8) with 4 in H1]; lia. }
  unfold dumpHexData in E3. rewrite E4 in E3. eexists. split; [exact E|]. split; [exact E3|].
  change (dump_text w addr data) with ("" +++ dump_text w addr data). eapply printed_trans; [exact P3|]. fold (say ps s3).
  pose proof (say_printed ps s3) as PS. rewrite G in PS. unfold dump_text. destruct data; exact PS.
Qed.
(*@ex
Example C64_roundtrip_partial_ex : on_sim (ex_code [1; 2; 3; 4; 5; 6; 7; 8]) (fun s => exists s' s'',
  do_write ["2"; "0x12"; "254"] 16 s = (s', Done tt) /\ do_read ["2"; "4"] 16 s' = (s'', Done tt) /\ out_text s'' = the_line "00000002:  0012 00fe").
Proof. vm_compute. eexists. eexists. repeat split; reflexivity. Qed.
@*)

(*@doc C64: a value that is not a byte makes every write command raise ValueError, and
nothing is stored. @*)
Lemma C64_limit_proof : forall s w a addr pre ds data pres, ready s -> cpu_ok (sim_cpu s) ->
  argument (sim_cpu s) a addr pre -> arguments (sim_cpu s) ds data pres -> ~ bytes data ->
  exists s' t, do_write (a :: ds) w s = (s', Fail (Raised ValueError)) /\ printed s t s'.
Proof.
  intros s w a addr pre ds data pres R OK A D B.
  destruct (C68_argument_proof s a addr pre R OK A) as [s1 [E1 P1]]. destruct (printed_ready _ _ _ R P1) as [R1 C1].
  assert (OK1 : cpu_ok (sim_cpu s1)) by (rewrite C1; exact OK). assert (D1 : arguments (sim_cpu s1) ds data pres) by (rewrite C1; exact D).
  destruct (byte_args_bad ds s1 data pres R1 OK1 D1 B) as [s2 [t [E2 P2]]]. exists s2, (pre +++ t). split; [|exact (printed_trans _ _ _ _ _ P1 P2)].
  unfold do_write. unfold sbind at 1. rewrite E1. destruct ds as [|d ds]; [discriminate E2|]. unfold sbind. rewrite E2. reflexivity.
Qed.
(*@ex
Example C64_limit_ex : on_sim (ex_code [1; 2; 3; 4]) (fun s => exists s', do_write ["0"; "1"; "256"] 32 s = (s', Fail (Raised ValueError)) /\ sim_cpu s' = sim_cpu s).
Proof. vm_compute. eexists. split; reflexivity. Qed.
@*)

(*@doc C64 fails: write16 does not take the halfword 0x1234. @*)
Lemma C64_refuted_proof : exists c v, cpu_ok c /\ 0 <= v < 2 ^ 16 /\ located c 0 0 (mkmem 0 3 [1; 2; 3; 4]) /\
  forall s, ready s -> sim_cpu s = c -> exists t, integer t v /\ do_write ["0"; t] 16 s = (s, Fail (Raised ValueError)).
Proof.
  exists (ex_code [1; 2; 3; 4]), 4660. split.
  { destruct C36_fresh_proof as [A [B [C _]]]. unfold cpu_ok, ex_code. split; [|split]; [apply C36_invariant_proof| apply C37_sp_mirror_proof |apply C36_invariant_proof]; try assumption; repeat constructor. }
  split; [lia|]. split.
  { split; [vm_compute; reflexivity|]. split; [split; cbn; lia|]. intros j m' H. lia. }
  intros s R _. exists "0x1234". split; [|vm_compute; destruct s; reflexivity].
  apply int_plain, (num_hex "1234"); [discriminate|]. split; [|reflexivity].
  repeat apply Forall_cons; try apply Forall_nil; split; vm_compute; congruence.
Qed.

(** ** Dumps *)
Lemma dump_from_same : forall l w a b start i, width_ok w -> 0 <= i -> (a = b \/ i + Z.of_nat (List.length l) <= 128 / w) ->
  dump_from w a start i l = dump_from w b start i l.
Proof.
  induction l as [|d l IH]; intros w a b start i W Hi H; [reflexivity|]. cbn [dump_from]. cbn [List.length] in H.
  rewrite (IH w a b start (i + 1) W) by lia. f_equal. destruct H as [->|H]; [reflexivity|].
  destruct (Z.eqb_spec (i mod (128 / w)) 0) as [E|E]; [|reflexivity]. rewrite Z.mod_small in E by lia. subst i. now rewrite !Z.mul_0_r.
Qed.

(*@doc C66: a dump shows the units, a multiple of 16 bytes in a line that begins with its
address - for bytes, and for one line of wider units.  Missing: further lines of units of
16 and 32 bits (C66_refuted). @*)
Lemma C66_dump_partial_proof : forall s w start l, ready s -> width_ok w -> Forall (fun v => 0 <= v < 2 ^ w) l ->
  0 <= start -> start + Z.of_nat (List.length l) <= 2 ^ 32 -> (w = 8 \/ Z.of_nat (List.length l) <= 128 / w) ->
  exists s', dumpHexData l start w s = (s', Done tt) /\ printed s (right_dump w start l) s'.
Proof.
  intros s w start l R W F H0 H1 H2. destruct (dump_items_ok l w start 0 true s W ltac:(lia)) as [ps [E G]]; try assumption; try lia.
  { destruct W as [->|[->| ->]]; reflexivity. } { exact (proj1 R). }
  exists (say ps s). split; [exact E|]. pose proof (say_printed ps s) as PS. rewrite G in PS. unfold right_dump.
  rewrite (dump_from_same l w (w / 8) 1 start 0 W ltac:(lia)) by (destruct H2 as [->|H2]; [left; reflexivity|right; lia]). destruct l; exact PS.
Qed.
(*@ex
Example C66_dump_partial_ex : right_dump 8 4096 [0; 1; 2; 3; 4; 5; 6; 7; 8; 9; 10; 11; 12; 13; 14; 15; 16] =
  the_line "00001000:  00 01 02 03  04 05 06 07  08 09 0a 0b  0c 0d 0e 0f " +++ the_line "00001010:  10" /\
  right_dump 32 4096 [1; 2; 3; 4; 5] = the_line "00001000:  00000001 00000002 00000003 00000004" +++ the_line "00001010:  00000005".
Proof. split; vm_compute; reflexivity. Qed.
@*)

(*@doc C66, any number of lines: the units are right, but the address at the beginning of
a line counts units. @*)
Lemma C66_exact_proof : forall s w start l, ready s -> width_ok w -> Forall (fun v => 0 <= v < 2 ^ w) l ->
  0 <= start -> start + Z.of_nat (List.length l) <= 2 ^ 32 ->
  exists s', dumpHexData l start w s = (s', Done tt) /\ printed s (dump_text w start l) s'.
Proof.
  intros s w start l R W F H0 H1. destruct (dump_items_ok l w start 0 true s W ltac:(lia)) as [ps [E G]]; try assumption; try lia.
  { destruct W as [->|[->| ->]]; reflexivity. } { exact (proj1 R). }
  exists (say ps s). split; [exact E|]. pose proof (say_printed ps s) as PS. rewrite G in PS. unfold dump_text. destruct l; exact PS.
Qed.
(*@ex
Example C66_exact_ex : dump_text 32 4096 [1; 2; 3; 4; 5] =
  the_line "00001000:  00000001 00000002 00000003 00000004" +++ the_line "00001004:  00000005".
Proof. vm_compute. reflexivity. Qed.
@*)

(*@doc C66 fails: the second line of a dump of words is labelled with an address that is
twelve too low. @*)
Lemma C66_refuted_proof : exists w start l, width_ok w /\ Forall (fun v => 0 <= v < 2 ^ w) l /\
  forall s, ready s -> exists s', dumpHexData l start w s = (s', Done tt) /\ ~ printed s (right_dump w start l) s'.
Proof.
  exists 32, 4096, [1; 2; 3; 4; 5]. split; [right; now right|].
  assert (F : Forall (fun v => 0 <= v < 2 ^ 32) [1; 2; 3; 4; 5]) by (repeat (apply Forall_cons; [lia|]); apply Forall_nil). split; [exact F|].
  intros s R. destruct (C66_exact_proof s 32 4096 [1; 2; 3; 4; 5] R ltac:(right; now right) F) as [s' [E P]]; [lia|cbn; lia|].
  exists s'. split; [exact E|]. intros [_ [_ [_ [l [O G]]]]]. destruct P as [_ [_ [_ [l' [O' G']]]]].
  rewrite O in O'. apply app_inv_head in O'.
  assert (X : l = l'). { clear -O'. revert l' O'. induction l as [|x l IH]; intros [|y l'] O'; try discriminate O'; [reflexivity|]. injection O' as -> O'. f_equal. now apply IH. }
  subst l'. rewrite G in G'. vm_compute in G'. discriminate G'.
Qed.
