(** * Proofs of statements about words that no decoder takes *)
From Coq Require Import Lia ZifyBool Permutation Sorted.
From Verif Require Import DecoderModel TableModel SpecBits SpecDecoder SpecIsa SpecMiss TreeFacts DecThms IsaFacts IsaRows IsaThms.
(*@imports
From Coq Require Import Lia Permutation Sorted.
From Verif Require Import DecoderModel TableModel SpecBits SpecDecoder SpecIsa SpecMiss MissThms.
@*)

Lemma told_unique : forall l m m', told_apart_by l m -> told_apart_by l m' -> m = m'.
Proof.
  intros l m m' (_ & A & _) (_ & B & _). apply Z.bits_inj'. intros k _. specialize (A k). specialize (B k).
  destruct (Z.testbit m k), (Z.testbit m' k); intuition congruence.
Qed.
Lemma told_set : forall l l' m, (forall p, In p l <-> In p l') -> told_apart_by l m -> told_apart_by l' m.
Proof.
  intros l l' m S (N & A & p & q & P & Q & D). split; [exact N|]. split.
  - intros k. rewrite A. split; intros [K X]; (split; [exact K|]); intros x I; apply X; apply S; exact I.
  - exists p, q. split; [apply S; exact P|]. split; [apply S; exact Q|exact D].
Qed.
Lemma gives_set : forall w l e, gives_up w l e -> forall l', (forall p, In p l <-> In p l') -> gives_up w l' e.
Proof.
  intros w l e G. induction G as [l N|l m T M|l m e T (p & P & E) G IH]; intros l' S.
  - apply up_end. intros m T. apply (N m). apply (told_set l' l); [intros p; symmetry; apply S|exact T].
  - apply (up_none w l' m); [exact (told_set l l' m S T)|]. intros p P. apply M. apply S. exact P.
  - apply (up_some w l' m); [exact (told_set l l' m S T)|exists p; split; [apply S; exact P|exact E]|].
    apply IH. intros q. rewrite !filter_In, S. reflexivity.
Qed.
Lemma gives_det : forall w l e, gives_up w l e -> forall e', gives_up w l e' -> e' = e.
Proof.
  intros w l e G. induction G as [l N|l m T M|l m e T (p & P & E) G IH]; intros e' G'.
  - inversion G' as [? ?|? m T|? m ? T]; subst; [reflexivity| |]; exfalso; exact (N m T).
  - inversion G' as [? N|? m' T'|? m' ? T' (p & P & E)]; subst; [exfalso; exact (N m T)|reflexivity|].
    exfalso. rewrite (told_unique l m' m T' T) in E. exact (M p P E).
  - inversion G' as [? N|? m' T' M'|? m' ? T' _ G'']; subst; [exfalso; exact (N m T)| |].
    + exfalso. rewrite (told_unique l m' m T' T) in M'. exact (M' p P E).
    + rewrite (told_unique l m' m T' T) in G''. apply IH. exact G''.
Qed.

Section Miss.
  Context {H : Type}.
  Lemma all_bits : forall (l : list (decoder H)) k, 0 <= k ->
    Z.testbit (all_masks l) k = true <-> forall d, In d l -> Z.testbit (d_mask d) k = true.
  Proof.
    intros l k K. induction l as [|d l IH].
    - split; [intros _ d []|intros _; apply Z.bits_m1; exact K].
    - rewrite all_masks_cons, Z.land_spec, andb_true_iff, IH. split.
      + intros [A B] x [<-|I]; [exact A|exact (B x I)].
      + intros A. split; [apply A; left; reflexivity|intros x I; apply A; right; exact I].
  Qed.
  Lemma common_bits : forall (l : list (decoder H)), l <> [] -> forall k,
    Z.testbit (common_mask l) k = true <-> 0 <= k /\ forall p, In p (map fixed_of l) -> Z.testbit (fst p) k = true.
  Proof.
    intros l N k. rewrite (common_all l N). destruct (Z.ltb_spec k 0) as [K|K].
    - rewrite Z.testbit_neg_r by exact K. split; [discriminate|lia].
    - rewrite (all_bits l k K). split.
      + intros A. split; [exact K|]. intros p P. apply in_map_iff in P. destruct P as (d & <- & I). exact (A d I).
      + intros [_ A] d I. exact (A (fixed_of d) (in_map _ _ _ I)).
  Qed.
  Lemma filter_map_fixed : forall (l : list (decoder H)) m w,
    filter (fun p => Z.land (snd p) m =? w) (map fixed_of l) = map fixed_of (filter (fun d => key m d =? w) l).
  Proof.
    intros l m w. induction l as [|d l IH]; [reflexivity|]. cbn [map filter]. rewrite IH. unfold key. cbn [fixed_of snd].
    destruct (Z.land (d_match d) m =? w); reflexivity.
  Qed.
  Lemma miss_gives : forall f (l : list (decoder H)) w, (List.length l < f)%nat -> gives_up w (map fixed_of l) (miss f l w).
  Proof.
    induction f as [|f IH]; intros l w L; [lia|]. cbn [miss]. destruct l as [|d0 [|d1 l0]].
    - apply up_end. intros m (_ & _ & p & _ & [] & _).
    - apply up_end. intros m (_ & _ & p & q & [<-|[]] & [<-|[]] & N). exact (N eq_refl).
    - set (l := d0 :: d1 :: l0) in *. pose proof (common_bits l ltac:(discriminate)) as CB.
      assert (U : forall m, told_apart_by (map fixed_of l) m -> m = common_mask l).
      { intros m (_ & A & _). apply Z.bits_inj'. intros k _. specialize (A k). specialize (CB k).
        destruct (Z.testbit m k), (Z.testbit (common_mask l) k); intuition congruence. }
      destruct (Z.eqb_spec (common_mask l) 0) as [Z0|NZ].
      + apply up_end. intros m T. pose proof (U m T) as Em. destruct T as [T _]. congruence.
      + destruct (forallb (fun d => key (common_mask l) d =? key (common_mask l) d0) l) eqn:F.
        * apply up_end. intros m T. pose proof (U m T) as ->. destruct T as (_ & _ & p & q & P & Q & D).
          apply in_map_iff in P, Q. destruct P as (dp & <- & P), Q as (dq & <- & Q). rewrite forallb_forall in F.
          pose proof (F dp P) as F1. pose proof (F dq Q) as F2. unfold key in F1, F2. cbn [fixed_of snd] in D. lia.
        * assert (T : told_apart_by (map fixed_of l) (common_mask l)).
          { split; [exact NZ|]. split; [exact CB|]. 
            assert (X : exists y, In y l /\ key (common_mask l) y <> key (common_mask l) d0).
            { revert F. generalize (common_mask l) as m. generalize l as L'. clear. intros L' m. induction L' as [|y L' IH]; intro E; [discriminate|].
              cbn [forallb] in E. destruct (Z.eqb_spec (key m y) (key m d0)) as [K|K].
              - destruct (IH E) as [z [Hz Nz]]. exists z. split; [right; exact Hz | exact Nz].
              - exists y. split; [left; reflexivity | exact K]. }
            destruct X as (y & Y & D). exists (fixed_of y), (fixed_of d0). split; [apply in_map; exact Y|].
            split; [apply in_map; left; reflexivity|exact D]. }
          assert (SH : (List.length (filter (fun d => (key (common_mask l) d =? Z.land w (common_mask l))%Z) l) < List.length l)%nat).
          { destruct T as (_ & _ & p & q & P & Q & D). apply in_map_iff in P, Q. destruct P as (dp & <- & P), Q as (dq & <- & Q).
            destruct (Z.eqb_spec (key (common_mask l) dp) (Z.land w (common_mask l))) as [K|K].
            - apply (filter_shorter _ _ l dq Q). unfold key in *. cbn [fixed_of snd] in D. lia.
            - apply (filter_shorter _ _ l dp P). lia. }
          pose proof (filter_map_fixed l (common_mask l) (Z.land w (common_mask l))) as FM.
          destruct (filter (fun d => key (common_mask l) d =? Z.land w (common_mask l)) l) as [|x r] eqn:E.
          -- apply (up_none w _ _ T). intros p P K.
             assert (I : In p (filter (fun p => Z.land (snd p) (common_mask l) =? Z.land w (common_mask l)) (map fixed_of l))) by (apply filter_In; split; [exact P|lia]).
             rewrite FM in I. exact I.
          -- apply (up_some w _ _ _ T).
             ++ assert (I : In (fixed_of x) (filter (fun p => Z.land (snd p) (common_mask l) =? Z.land w (common_mask l)) (map fixed_of l))) by (rewrite FM; left; reflexivity).
                apply filter_In in I. destruct I as [I1 I2]. exists (fixed_of x). split; [exact I1|lia].
             ++ rewrite FM. apply IH. lia.
  Qed.
End Miss.

(*@doc C25: which exception it is when no decoder takes the word. @*)
Lemma C25_miss_proof : forall (H : Type) call (ds : list (decoder H)) t py w a l e,
  Forall made ds -> build ds = Ok t ->
  (priority_order (filter (fun d => negb (d_is32 d)) ds) l -> first_of call py w a l None ->
   (snd (tree_decode call py (t_16 t) w a) = Err e <-> gives_up w (map fixed_of l) e)) /\
  (priority_order (filter d_is32 ds) l -> first_of call py w a l None ->
   (snd (tree_decode call py (t_32 t) w a) = Err e <-> gives_up w (map fixed_of l) e)).
Proof.
  intros H call ds t py w a l e M B. destruct (built H ds M) as [t16 [t32 [E T]]]. rewrite B in E. injection E as ->.
  cbn [t_16 t_32]. destruct (T call py w a) as [T16 T32]. rewrite T16, T32.
  assert (X : forall P, (List.length (filter P ds) < S (List.length ds))%nat -> priority_order (filter P ds) l -> first_of call py w a l None ->
    (outcome call py w a (S (List.length ds)) (sortw weight (filter P ds)) = Err e <-> gives_up w (map fixed_of l) e)).
  { intros P LP PO F. pose proof (narrow_ok _ ds P M) as O. apply (priority_sort weight) in PO. subst l.
    apply first_scan in F; [|apply sortw_ok; exact O]. unfold outcome. rewrite F.
    assert (G : gives_up w (map fixed_of (sortw weight (filter P ds))) (miss (S (List.length ds)) (sortw weight (filter P ds)) w)).
    { apply miss_gives. rewrite sortw_length. exact LP. }
    split; [intros X; injection X as <-; exact G|]. intros G'. rewrite (gives_det w _ _ G e G'). reflexivity. }
  split; intros P F.
  - apply (X (fun d => negb (d_is32 d))); [pose proof (filter_len _ (fun d => negb (d_is32 d)) ds); lia|exact P|exact F].
  - apply (X d_is32); [pose proof (filter_len _ d_is32 ds); lia|exact P|exact F].
Qed.
(*@ex
Example C25_miss_ex : exists d1 d2 t,
  make_decoder 1 "one" Instruction "0000 0000 a(8)" None [] = Ok d1 /\
  make_decoder 2 "two" Instruction "0000 0001 0000 a(4)" None [] = Ok d2 /\ build [d1; d2] = Ok t /\
  let call := fun (_ : pyver) (h : Z) (i : insn) (_ : list (string * bs)) => Ok i in
  snd (tree_decode call Py3 (t_16 t) 512 0) = Err AttributeError /\ gives_up 512 (map fixed_of [d2; d1]) AttributeError /\
  snd (tree_decode call Py3 (t_16 t) 288 0) = Err UndefinedInstructionError.
Proof.
  do 3 eexists. do 3 (split; [vm_compute; reflexivity|]). cbv zeta. split; [reflexivity|]. split; [|reflexivity].
  match goal with |- gives_up _ ?l _ => replace l with [(65520, 256); (65280, 0)] by (vm_compute; reflexivity) end.
  apply (up_none 512 _ 65280).
  - split; [discriminate|]. split.
    + intros k. split.
      * intros K. split; [destruct (Z.ltb_spec k 0) as [N|N]; [rewrite Z.testbit_neg_r in K by exact N; discriminate K|exact N]|].
        intros p [<-|[<-|[]]]; [|exact K]. cbn [fst]. change 65520 with (Z.lor 65280 240). rewrite Z.lor_spec, K. reflexivity.
      * intros [_ A]. apply (A (65280, 0)). right. left. reflexivity.
    + eexists. eexists. split; [left; reflexivity|]. split; [right; left; reflexivity|]. discriminate.
  - intros p [<-|[<-|[]]]; discriminate.
Qed.
@*)

Lemma fixed_rows : forall l rows, Forall2 (fun d r => row_bits d r = true) l rows -> Forall (fun r => fixed_in (r_text r) = (fixed_mask (placed (r_text r)), fixed_match (placed (r_text r)))) rows ->
  map fixed_of l = map (fun r => fixed_in (r_text r)) rows.
Proof.
  intros l rows F. induction F as [|d r l rows B F IH]; intros A; [reflexivity|]. inversion A as [|? ? A1 A2]; subst.
  cbn [map]. rewrite (IH A2), A1. f_equal. unfold row_bits in B. unfold fixed_of. apply andb_prop in B. destruct B as [B B2]. apply andb_prop in B. destruct B as [_ B1].
  apply Z.eqb_eq in B1, B2. rewrite B1, B2. reflexivity.
Qed.
Lemma fixed16 : map fixed_of sorted16 = map (fun r => fixed_in (r_text r)) isa16.
Proof. apply fixed_rows; [exact bits16|]. unfold isa16. repeat (apply Forall_cons; [vm_compute; reflexivity|]). apply Forall_nil. Qed.
Lemma fixed32 : map fixed_of sorted32 = map (fun r => fixed_in (r_text r)) isa32.
Proof. apply fixed_rows; [exact bits32|]. unfold isa32. repeat (apply Forall_cons; [vm_compute; reflexivity|]). apply Forall_nil. Qed.

Local Opaque table_decoders sorted16 sorted32.
Lemma table_miss : exists t16 t32, DECODER_TREE = Ok (mkdtree t16 t32) /\ forall py w a e,
  (row_for isa16 w = None -> (snd (tree_decode call_handler py t16 w a) = Err e <-> gives_up w (map (fun r => fixed_in (r_text r)) isa16) e)) /\
  (row_for isa32 w = None -> (snd (tree_decode call_handler py t32 w a) = Err e <-> gives_up w (map (fun r => fixed_in (r_text r)) isa32) e)).
Proof.
  destruct (built _ table_decoders table_made) as [t16 [t32 [E O]]].
  exists t16, t32. split.
  { rewrite tree_def. exact E. }
  intros py w a e. destruct (O call_handler py w a) as [O16 O32]. rewrite O16, O32, sort16, sort32.
  assert (L16 : (List.length sorted16 < S (List.length table_decoders))%nat) by (apply Nat.ltb_lt; vm_compute; reflexivity).
  assert (L32 : (List.length sorted32 < S (List.length table_decoders))%nat) by (apply Nat.ltb_lt; vm_compute; reflexivity).
  unfold TreeFacts.outcome. rewrite (scan_rows false _ _ rows16 bits16 narrow16), (scan_rows true _ _ rows32 bits32 wide32).
  pose proof (miss_gives _ sorted16 w L16) as G16. pose proof (miss_gives _ sorted32 w L32) as G32. rewrite fixed16 in G16. rewrite fixed32 in G32.
  split; intros N; rewrite N; cbn [option_map].
  - split; [intros X; injection X as <-; exact G16|]. intros G. rewrite (gives_det w _ _ G16 e G). reflexivity.
  - split; [intros X; injection X as <-; exact G32|]. intros G. rewrite (gives_det w _ _ G32 e G). reflexivity.
Qed.

(*@doc C31: which exception it is for a halfword that has no row. @*)
Lemma C31_undefined16_proof : forall t py a b0 b1 rest e, DECODER_TREE = Ok t ->
  0 <= b0 < 256 -> 0 <= b1 < 256 -> ~ In (b1 / 8) [29; 30; 31] -> row_for isa16 (b0 + 256 * b1) = None ->
  (snd (decode call_handler py t (b0 :: b1 :: rest) a) = Err e <->
   gives_up (b0 + 256 * b1) (map (fun r => fixed_in (r_text r)) isa16) e).
Proof.
  intros t py a b0 b1 rest e E H0 H1 N R. destruct table_miss as [t16 [t32 [E' T]]]. rewrite E in E'. injection E' as ->.
  rewrite (proj1 (C27_word_proof _ call_handler py (mkdtree t16 t32) b0 b1 rest a H0 H1) N). cbn [t_16].
  exact (proj1 (T py (b0 + 256 * b1) a e) R).
Qed.
(*@ex
Example C31_undefined16_ex : row_for isa16 (0 + 256 * 184) = None /\ decode_bytes Py3 [0; 184] 0 = Err AttributeError.
Proof. split; vm_compute; reflexivity. Qed.
@*)

(*@doc C31: and for a 32-bit word. @*)
Lemma C31_undefined32_proof : forall t py a b0 b1 b2 b3 rest e, DECODER_TREE = Ok t ->
  0 <= b0 < 256 -> 0 <= b1 < 256 -> 0 <= b2 < 256 -> 0 <= b3 < 256 -> In (b1 / 8) [29; 30; 31] ->
  let w := b0 + 256 * b1 + 65536 * b2 + 16777216 * b3 in
  row_for isa32 w = None ->
  (snd (decode call_handler py t (b0 :: b1 :: b2 :: b3 :: rest) a) = Err e <->
   gives_up w (map (fun r => fixed_in (r_text r)) isa32) e).
Proof.
  intros t py a b0 b1 b2 b3 rest e E H0 H1 H2 H3 N w R. destruct table_miss as [t16 [t32 [E' T]]]. rewrite E in E'. injection E' as ->.
  rewrite (proj2 (C27_word_proof _ call_handler py (mkdtree t16 t32) b0 b1 rest a H0 H1) N b2 b3 H2 H3). cbn [t_32].
  exact (proj2 (T py w a e) R).
Qed.
(*@ex
Example C31_undefined32_ex : row_for isa32 (255 + 256 * 255 + 65536 * 255 + 16777216 * 255) = None /\
  exists e, decode_bytes Py3 [255; 255; 255; 255] 0 = Err e.
Proof. split; [vm_compute; reflexivity|]. eexists. vm_compute. reflexivity. Qed.
@*)
