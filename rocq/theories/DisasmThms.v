(** * Disassembler: properties C32, C33 *)
From Coq Require Import Lia ZifyBool.
From Verif Require Import DisasmModel SpecBits SpecDecoder TreeFacts DecThms IsaThms SpecIsa SpecWhole SpecDisasm.
Local Open Scope bool_scope.
Local Open Scope Z_scope.
(*@imports
From Coq Require Import Lia.
From Verif Require Import DisasmModel SpecBits SpecDecoder SpecIsa SpecWhole SpecDisasm DisasmThms.
@*)

(** ** Facts *)
Lemma module_decode : forall py t data a, module_tree t ->
  snd (decode call_handler py t data a) = decode_bytes py data a /\ module_tree (fst (decode call_handler py t data a)).
Proof.
  intros py t data a (t0 & calls & E & ->). unfold decode_bytes. rewrite E. cbn [bind]. split.
  - apply C29_history_proof.
  - exists t0, (calls ++ [(py, data, a)]). split; [exact E|]. unfold after. rewrite fold_left_app. reflexivity.
Qed.
Lemma module_after : forall t calls, module_tree t -> module_tree (after call_handler t calls).
Proof.
  intros t calls (t0 & calls0 & E & ->). exists t0, (calls0 ++ calls). split; [exact E|]. unfold after. rewrite fold_left_app. reflexivity.
Qed.
Lemma decode_nil : forall py a, decode_bytes py [] a = Err AssertionError.
Proof. intros py a. destruct C31_builds_proof as [t E]. unfold decode_bytes. rewrite E. reflexivity. Qed.
Lemma size_pos : forall i, 2 <= i_size i <= 4.
Proof. intros i. unfold i_size. destruct (i_is32 i); lia. Qed.
Lemma decode_length : forall py data a i, decode_bytes py data a = Ok i -> (2 <= List.length data)%nat.
Proof.
  intros py data a i E. destruct data as [|b0 [|b1 rest]]; [| |cbn [List.length]; lia]; exfalso;
  destruct C31_builds_proof as [t D]; unfold decode_bytes in E; rewrite D in E; discriminate E.
Qed.

Lemma decode_size : forall py data a i, bytes data -> decode_bytes py data a = Ok i -> i_size i <= Z.of_nat (List.length data).
Proof. intros py data a i B E. apply (C30_bytes_proof py data a i B E). Qed.
Lemma bytes_skipn : forall n data, bytes data -> bytes (skipn n data).
Proof. intros n data B. unfold bytes in *. rewrite Forall_forall in *. intros x I. apply B. rewrite <- (firstn_skipn n data). apply in_or_app. right. exact I. Qed.

(** The state of a generator that is about to read [data] at [a]. *)
Definition reading (g : gen) (a : Z) (data : list Z) : Prop :=
  g_live g = true /\ g_address g = a /\ from_offset (g_data g) (g_offset g) = data /\ 0 <= g_offset g <= Z.of_nat (List.length (g_data g)) /\
  g_end g = a + Z.of_nat (List.length data).
Lemma reading_start : forall data a, reading (disasm_start data a) a data.
Proof. intros data a. unfold reading, disasm_start, from_offset. cbn. repeat split; lia. Qed.
Lemma skipn_skipn' : forall A (l : list A) m n, skipn m (skipn n l) = skipn (n + m) l.
Proof. intros A l m n. revert l. induction n as [|n IH]; intros [|x l]; cbn; try reflexivity; [destruct m; reflexivity|apply IH]. Qed.

Lemma next_spec : forall py t g a data, bytes data -> module_tree t -> reading g a data ->
  let '(t', g', p) := disasm_next py t g in module_tree t' /\
  match p with
  | Yields i => decode_bytes py data a = Ok i /\ reading g' (a + i_size i) (skipn (Z.to_nat (i_size i)) data)
  | Stops => g_live g' = false /\ (data = [] \/ data <> [] /\ decode_bytes py data a = Err UndefinedInstructionError /\ (List.length data < 4)%nat)
  | Throws e => g_live g' = false /\ data <> [] /\ decode_bytes py data a = Err e /\ (e = UndefinedInstructionError -> (4 <= List.length data)%nat)
  end.
Proof.
  intros py t g a data B M (L & A & D & O & E). unfold disasm_next. rewrite L, A, D, E. cbn [negb].
  destruct (a <? a + Z.of_nat (List.length data)) eqn:LT.
  - destruct (module_decode py t data a M) as [E1 M1]. destruct (decode call_handler py t data a) as [t' r]. cbn [fst snd] in E1, M1. subst r.
    assert (NE : data <> []) by (intros ->; cbn in LT; lia).
    destruct (decode_bytes py data a) as [i|e] eqn:DE.
    + split; [exact M1|]. split; [reflexivity|]. pose proof (size_pos i). pose proof (decode_size py data a i B DE) as SZ.
      assert (LD : Z.of_nat (List.length data) = Z.of_nat (List.length (g_data g)) - g_offset g).
      { rewrite <- D. unfold from_offset. rewrite skipn_length. lia. }
      unfold reading. cbn [g_live g_address g_data g_offset g_end]. split; [reflexivity|]. split; [reflexivity|].
      split; [|split; [lia|rewrite skipn_length; lia]]. unfold from_offset in *. rewrite <- D, skipn_skipn'. f_equal. lia.
    + destruct e; try (split; [exact M1|]; split; [reflexivity|]; split; [exact NE|]; split; [reflexivity|]; intros Q; discriminate Q).
      destruct (a + Z.of_nat (List.length data) - a <? 4) eqn:F; (split; [exact M1|]; split; [reflexivity|]).
      * right. split; [exact NE|]. split; [reflexivity|]. lia.
      * split; [exact NE|]. split; [reflexivity|]. lia.
  - split; [exact M|]. split; [reflexivity|]. left. destruct data; [reflexivity|]. cbn [List.length] in LT. lia.
Qed.
Lemma pull_all_spec : forall fuel py t g a data, (List.length data < fuel)%nat -> bytes data -> module_tree t -> reading g a data ->
  let '(t', l, r) := pull_all fuel py t g in module_tree t' /\ listing py a data l r.
Proof.
  induction fuel as [|fuel IH]; intros py t g a data F B M RD; [lia|]. cbn [pull_all].
  pose proof (next_spec py t g a data B M RD) as N. destruct (disasm_next py t g) as [[t' g'] [i| |e]]; destruct N as [M' N].
  - destruct N as [DE RD']. pose proof (size_pos i). pose proof (decode_length py data a i DE).
    assert (FL : (List.length (skipn (Z.to_nat (i_size i)) data) < fuel)%nat) by (rewrite skipn_length; lia).
    specialize (IH py t' g' _ _ FL (bytes_skipn (Z.to_nat (i_size i)) data B) M' RD').
    destruct (pull_all fuel py t' g') as [[t'' l] r]. destruct IH as [M'' LS]. split; [exact M''|]. apply listing_step; assumption.
  - destruct N as [_ [->|(NE & DE & LN)]]; (split; [exact M'|]); [apply listing_end|apply listing_rest; assumption].
  - destruct N as (_ & NE & DE & LN). split; [exact M'|]. apply listing_fails; assumption.
Qed.

(** ** C32 *)
(*@doc C32: disassembling bytes gives exactly their listing, whatever was decoded before, and
leaves the decoder as usable as it was. @*)
Lemma C32_listing_proof : forall py t data a, bytes data -> module_tree t ->
  let '(t', l, r) := disasm py t data a in module_tree t' /\ listing py a data l r.
Proof. intros py t data a B M. apply pull_all_spec; [lia|exact B|exact M|apply reading_start]. Qed.
(*@ex
Example C32_listing_ex : match DECODER_TREE with
  | Ok t => let '(_, l, r) := disasm Py2 t [0; 191; 0; 240; 3; 248; 17; 43; 0; 240] 100 in
      map (fun i => (i_mnemonic i, i_address i)) l = [("nop", 100); ("bl", 102); ("cmp", 106)]%string /\ r = Ok tt
  | Err _ => False
  end.
Proof. vm_compute. split; reflexivity. Qed.
@*)

(*@doc C32: there is only one listing, so the listing determines what is produced. @*)
Lemma C32_unique_proof : forall py a data l r l' r', listing py a data l r -> listing py a data l' r' -> l = l' /\ r = r'.
Proof.
  intros py a data l r l' r' H. revert l' r'. induction H as [a|a data NE D L|a data e NE D L|a data i l r D H IH]; intros l' r' H'; inversion H'; subst; try congruence; try (split; congruence).
  - rewrite decode_nil in H. discriminate H.
  - exfalso. match goal with X : ?e = UndefinedInstructionError -> _ |- _ => assert (Q : e = UndefinedInstructionError) by congruence; specialize (X Q) end. lia.
  - exfalso. match goal with X : ?e = UndefinedInstructionError -> _ |- _ => assert (Q : e = UndefinedInstructionError) by congruence; specialize (X Q) end. lia.
  - rewrite decode_nil in D. discriminate D.
  - assert (i0 = i) as -> by congruence. match goal with X : listing _ _ _ _ _ |- _ => destruct (IH _ _ X) as [-> ->] end. split; reflexivity.
Qed.
(*@ex
Example C32_unique_ex : exists i, decode_bytes Py2 [0; 191; 0; 240] 100 = Ok i /\ listing Py2 100 [0; 191; 0; 240] [i] (Ok tt).
Proof.
  eexists. split; [vm_compute; reflexivity|]. apply listing_step; [vm_compute; reflexivity|].
  apply listing_rest; [discriminate|vm_compute; reflexivity|]. apply le_n_S, le_n_S, le_n_S, le_0_n.
Qed.
@*)

(*@doc C32: a listing partitions the data: its instructions are consecutive from the start
address, their bytes are the beginning of the data, and each is what decode returns
for the data from its place on; what is left is the rest after the last one. @*)
Lemma C32_partition_proof : forall py a data l r, bytes data -> listing py a data l r ->
  let n := Z.to_nat (sizes l) in
  consecutive a l /\ flat_map i_bytes l = firstn n data /\ sizes l <= Z.of_nat (List.length data) /\
  (forall k i, nth_error l k = Some i -> let m := sizes (firstn k l) in
    decode_bytes py (skipn (Z.to_nat m) data) (a + m) = Ok i) /\
  listing py (a + sizes l) (skipn n data) [] r.
Proof.
  intros py a data l r B H. induction H as [a|a data NE D L|a data e NE D L|a data i l r D H IH].
  - cbn. repeat split; try lia; [intros [|k] i; discriminate|]. rewrite Z.add_0_r. apply listing_end.
  - cbn. repeat split; try lia; [intros [|k] i; discriminate|]. rewrite Z.add_0_r. apply listing_rest; assumption.
  - cbn. repeat split; try lia; [intros [|k] i; discriminate|]. rewrite Z.add_0_r. apply listing_fails; assumption.
  - cbv zeta in *. specialize (IH (bytes_skipn _ _ B)). destruct IH as (C & F & S & K & E). pose proof (size_pos i).
    destruct (C30_bytes_proof py data a i B D) as (BY & AD & _ & SZ).
    assert (SN : forall l', 0 <= sizes l').
    { induction l' as [|j l' IH']; cbn [sizes fold_right]; [lia|]. fold (sizes l'). pose proof (size_pos j). lia. }
    pose proof (SN l) as SL. cbn [sizes fold_right] in *. fold (sizes l) in *. rewrite skipn_length in S.
    replace (Z.to_nat (i_size i + sizes l)) with (Z.to_nat (i_size i) + Z.to_nat (sizes l))%nat by lia.
    rewrite <- skipn_skipn', Z.add_assoc. repeat split; try assumption; try lia.
    + cbn [flat_map]. rewrite BY, F. remember (Z.to_nat (i_size i)) as m. 
      rewrite <- (firstn_skipn m data) at 3. rewrite firstn_app, firstn_length.
      replace (Nat.min m (List.length data)) with m by lia. rewrite firstn_firstn. f_equal; f_equal; lia.
    + intros [|k] j NK.
      * cbn in NK. injection NK as <-. cbn. rewrite Z.add_0_r. exact D.
      * cbn [nth_error firstn] in *. specialize (K k j NK). cbv zeta in K. cbn [sizes fold_right]. fold (sizes (firstn k l)).
        pose proof (SN (firstn k l)). replace (Z.to_nat (i_size i + sizes (firstn k l))) with (Z.to_nat (i_size i) + Z.to_nat (sizes (firstn k l)))%nat by lia.
        rewrite <- skipn_skipn', Z.add_assoc. exact K.
Qed.
(*@ex
Example C32_partition_ex : exists i, decode_bytes Py2 [0; 191; 0; 240] 100 = Ok i /\ listing Py2 100 [0; 191; 0; 240] [i] (Ok tt) /\
  sizes [i] = 2 /\ flat_map i_bytes [i] = [0; 191].
Proof.
  destruct C32_unique_ex as (i & D & L). exists i. split; [exact D|]. split; [exact L|]. vm_compute in D. injection D as <-. split; reflexivity.
Qed.
@*)

(*@doc C32: the generator is lazy, and what others decode between two calls of next does not
matter: the n-th call gives the n-th instruction of the listing, then its end. @*)
Lemma C32_interleaved_proof : forall py t data a l r others, bytes data -> module_tree t -> listing py a data l r ->
  pulls py t (disasm_start data a) others = expected l r (List.length others).
Proof.
  intros py t data a l r others B M H.
  assert (G : forall others t g a data l r n, (List.length others <= n)%nat -> bytes data -> module_tree t -> reading g a data -> listing py a data l r ->
    pulls py t g others = firstn (List.length others) (map Yields l ++ ending r :: repeat Stops n)).
  { assert (DEAD : forall others t g n, g_live g = false -> (List.length others <= n)%nat -> pulls py t g others = firstn (List.length others) (repeat Stops n)).
    { clear. induction others as [|calls others IH]; intros t g n L LN; [reflexivity|]. cbn [pulls]. unfold disasm_next. rewrite L. cbn [negb].
      destruct n as [|n]; [cbn in LN; lia|]. cbn [List.length repeat firstn]. f_equal. apply IH; [exact L|cbn in LN; lia]. }
    clear - DEAD. induction others as [|calls others IH]; intros t g a data l r n LN B M RD H; [reflexivity|]. cbn [pulls].
    pose proof (next_spec py (after call_handler t calls) g a data B (module_after t calls M) RD) as N. cbn [List.length] in LN.
    destruct (disasm_next py (after call_handler t calls) g) as [[t' g'] [i| |e]]; destruct N as [M' N].
    - destruct N as [DE RD']. inversion H; subst; try congruence; [rewrite decode_nil in DE; discriminate DE|].
      replace i0 with i in * by congruence. cbn [List.length map app firstn]. f_equal.
      apply (IH t' g' _ _ _ _ n ltac:(lia) (bytes_skipn (Z.to_nat (i_size i)) data B) M' RD'). assumption.
    - destruct N as [LV N]. assert (l = [] /\ r = Ok tt) as [-> ->].
      { apply (C32_unique_proof py a data l r [] (Ok tt) H). destruct N as [->|(NE & DE & LD)]; [apply listing_end|apply listing_rest; assumption]. }
      cbn [List.length map app firstn ending]. f_equal. apply DEAD; [exact LV|lia].
    - destruct N as (LV & NE & DE & LD). assert (l = [] /\ r = Err e) as [-> ->].
      { apply (C32_unique_proof py a data l r [] (Err e) H). apply listing_fails; assumption. }
      cbn [List.length map app firstn ending]. f_equal. apply DEAD; [exact LV|lia]. }
  apply (G others t (disasm_start data a) a data l r (List.length others) (le_n _) B M (reading_start data a) H).
Qed.
(*@ex
Example C32_interleaved_ex : match DECODER_TREE, decode_bytes Py2 [0; 191; 0; 240] 100 with
  | Ok t, Ok i => pulls Py2 t (disasm_start [0; 191; 0; 240] 100) [[(Py3, [0; 184], 0)]; []; [(Py2, [1; 40], 8)]] = [Yields i; Stops; Stops]
  | _, _ => False
  end.
Proof. vm_compute. reflexivity. Qed.
@*)

(** ** C33 *)
(*@doc C33: how a disassembly ends. It ends normally exactly when the data is used up or the
rest is shorter than four bytes and undefined; a rest that is undefined and not shorter
raises UndefinedInstructionError; any other exception is the decoder's. @*)
Lemma C33_end_proof : forall py a data l r, bytes data -> listing py a data l r ->
  let rest := skipn (Z.to_nat (sizes l)) data in let b := a + sizes l in
  match r with
  | Ok _ => rest = [] \/ (2 <= List.length rest < 4)%nat /\ decode_bytes py rest b = Err UndefinedInstructionError
  | Err e => rest <> [] /\ decode_bytes py rest b = Err e /\
      (e = UndefinedInstructionError /\ (4 <= List.length rest)%nat \/ e = AssertionError /\ List.length rest = 1%nat \/
       (e = UnpredictableError \/ e = AttributeError \/ e = NameError) /\ (2 <= List.length rest)%nat)
  end.
Proof.
  intros py a data l r B H rest b. destruct (C32_partition_proof py a data l r B H) as (_ & _ & _ & _ & E). fold rest b in E.
  assert (BR : bytes rest) by (apply bytes_skipn; exact B).
  assert (ONE : List.length rest = 1%nat -> decode_bytes py rest b = Err AssertionError).
  { destruct rest as [|x [|y rest']]; intros LN; try discriminate LN. destruct C31_builds_proof as [t D]. unfold decode_bytes. rewrite D. reflexivity. }
  inversion E; subst.
  - left. reflexivity.
  - right. split; [|assumption]. split; [|assumption]. destruct rest as [|x [|y rest']]; [congruence| |cbn; lia]. specialize (ONE eq_refl). congruence.
  - split; [assumption|]. split; [assumption|]. destruct (Nat.eq_dec (List.length rest) 1) as [O|O].
    + right. left. split; [|exact O]. specialize (ONE O). congruence.
    + assert (L2 : (2 <= List.length rest)%nat) by (destruct rest as [|x [|y rest']]; cbn in *; congruence || lia).
      destruct (C28_errors_partial_proof py rest b BR L2) as [[i X]|[X|[X|[X|[X _]]]]]; [congruence| | | |].
      * left. split; [congruence|]. match goal with Q : e = UndefinedInstructionError -> _ |- _ => apply Q end. congruence.
      * right. right. split; [left; congruence|exact L2].
      * right. right. split; [right; left; congruence|exact L2].
      * right. right. split; [right; right; congruence|exact L2].
Qed.
(*@ex
Example C33_end_ex : match DECODER_TREE with
  | Ok t =>
    (let '(_, l, r) := disasm Py2 t [0; 191; 0; 182; 0; 191] 0 in map i_mnemonic l = ["nop"]%string /\ r = Err UndefinedInstructionError) /\
    (let '(_, l, r) := disasm Py2 t [0; 191; 0; 191; 0; 182] 0 in map i_mnemonic l = ["nop"; "nop"]%string /\ r = Ok tt)
  | Err _ => False
  end.
Proof. vm_compute. repeat split; reflexivity. Qed.
@*)

(*@doc C33: disassembly can be continued at any instruction boundary: if the first part is
used up exactly by its instructions, the whole gives these followed by what the second
part gives at the advanced address. @*)
Lemma C33_append_proof : forall py a data l data' l' r, bytes data -> bytes data' ->
  listing py a data l (Ok tt) -> sizes l = Z.of_nat (List.length data) ->
  listing py (a + sizes l) data' l' r -> listing py a (data ++ data') (l ++ l') r.
Proof.
  intros py a data l data' l' r B B' H. remember (Ok tt) as r0 eqn:ER. revert B.
  induction H as [a|a data NE D L|a data e NE D L|a data i l r0 D H IH]; intros B SZ H'.
  - cbn in *. rewrite Z.add_0_r in H'. exact H'.
  - cbn in SZ. destruct data; [congruence|discriminate SZ].
  - discriminate ER.
  - pose proof (decode_size py data a i B D) as LS. pose proof (size_pos i). cbn [sizes fold_right] in SZ, H'. fold (sizes l) in SZ, H'.
    assert (FR : decode_bytes py (data ++ data') a = Ok i).
    { rewrite <- D. destruct C31_builds_proof as [t DT]. unfold decode_bytes. rewrite DT. cbn [bind].
      destruct (C30_bytes_proof py data a i B D) as (_ & _ & S4 & _).
      destruct data as [|x [|y rest]]; cbn [List.length] in LS; [lia|lia|]. inversion B as [|? ? B0 BB']; subst. inversion BB' as [|? ? B1 BM]; subst.
      cbn [nth] in S4. destruct (in_dec Z.eq_dec (y / 8) [29; 30; 31]) as [IN|NI].
      - destruct rest as [|u [|v rest]]; cbn [List.length] in LS; [lia|lia|].
        destruct (C27_frame_proof hid call_handler py t x y rest (rest ++ data') a B0 B1) as [_ F2]. cbn [app]. rewrite <- (F2 IN u v). reflexivity.
      - destruct (C27_frame_proof hid call_handler py t x y rest (rest ++ data') a B0 B1) as [F1 _]. cbn [app]. rewrite <- (F1 NI). reflexivity. }
    cbn [app]. apply listing_step; [exact FR|]. rewrite skipn_app. replace (Z.to_nat (i_size i) - List.length data)%nat with O by lia. cbn [skipn].
    apply IH; [exact ER|apply bytes_skipn; exact B|rewrite skipn_length; lia|]. rewrite Z.add_assoc in H'. exact H'.
Qed.
(*@ex
Example C33_append_ex : exists i j, decode_bytes Py2 [0; 191] 100 = Ok i /\ decode_bytes Py2 [17; 43; 0] 102 = Ok j /\
  listing Py2 100 [0; 191] [i] (Ok tt) /\ sizes [i] = 2 /\ listing Py2 102 [17; 43; 0] [j] (Err AssertionError).
Proof.
  eexists. eexists. split; [vm_compute; reflexivity|]. split; [vm_compute; reflexivity|].
  split; [apply listing_step; [vm_compute; reflexivity|apply listing_end]|]. split; [reflexivity|].
  apply listing_step; [vm_compute; reflexivity|]. apply listing_fails; [discriminate|vm_compute; reflexivity|discriminate].
Qed.
@*)

(*@doc C33: data that ends with the first two or three bytes of a 32-bit instruction is
disassembled without an exception up to there. @*)
Lemma C33_truncated_proof : forall py a data l b0 b1 more, bytes (b0 :: b1 :: more) -> In (b1 / 8) [29; 30; 31] -> (List.length more <= 1)%nat ->
  bytes data -> listing py a data l (Ok tt) -> sizes l = Z.of_nat (List.length data) ->
  listing py a (data ++ b0 :: b1 :: more) l (Ok tt).
Proof.
  intros py a data l b0 b1 more BB P ML B H SZ.
  rewrite <- (app_nil_r l) at 1. apply C33_append_proof; try assumption.
  apply listing_rest; [discriminate| |cbn [List.length]; lia]. destruct C31_builds_proof as [t D]. unfold decode_bytes. rewrite D. cbn [bind].
  inversion BB as [|? ? B0 BB']; subst. inversion BB' as [|? ? B1 BM]; subst.
  destruct (C27_short_proof hid call_handler py t (a + sizes l) b0 b1 B0 B1) as (_ & _ & S). destruct (S P) as [S1 S2].
  destruct more as [|b2 [|]]; [exact S1|apply S2|cbn in ML; lia].
Qed.
(*@ex
Example C33_truncated_ex : In (247 / 8) [29; 30; 31] /\ exists i, decode_bytes Py2 [0; 191] 0 = Ok i /\ listing Py2 0 [0; 191] [i] (Ok tt) /\ sizes [i] = 2.
Proof.
  split; [right; left; reflexivity|]. eexists. split; [vm_compute; reflexivity|].
  split; [apply listing_step; [vm_compute; reflexivity|apply listing_end]|reflexivity].
Qed.
@*)

(*@doc C33: refuted: one byte after a complete instruction raises AssertionError, and an
undefined halfword in the middle may raise AttributeError. @*)
Lemma C33_refuted_proof : exists data data', bytes data /\ bytes data' /\ forall py, 
  (exists l, listing py 0 data l (Err AssertionError) /\ sizes l = 2 /\ List.length data = 3%nat) /\
  (exists l, listing py 0 data' l (Err AttributeError) /\ sizes l = 2 /\ List.length data' = 8%nat).
Proof.
  exists [0; 191; 0], [0; 191; 0; 184; 0; 191; 0; 191].
  split; [repeat apply Forall_cons; try apply Forall_nil; lia|]. split; [repeat apply Forall_cons; try apply Forall_nil; lia|].
  assert (X : forall py, exists i, decode_bytes py [0; 191; 0] 0 = Ok i /\ decode_bytes py [0; 191; 0; 184; 0; 191; 0; 191] 0 = Ok i /\ i_size i = 2 /\
    decode_bytes py [0] 2 = Err AssertionError /\ decode_bytes py [0; 184; 0; 191; 0; 191] 2 = Err AttributeError).
  { intros []; eexists; (split; [vm_compute; reflexivity|]); vm_compute; repeat split; reflexivity. }
  intros py. destruct (X py) as (i & D1 & D2 & SZ & E1 & E2).
  split; exists [i]; (split; [apply listing_step; [assumption|rewrite SZ; apply listing_fails; [discriminate|assumption|discriminate]]|]);
  (split; [cbn [sizes fold_right]; rewrite SZ; reflexivity|reflexivity]).
Qed.
