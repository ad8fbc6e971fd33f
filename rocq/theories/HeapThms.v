(** * Proofs about shared bitstring objects *)
(*@imports
From Coq Require Import ZArith List String Bool Lia.
From Verif Require Import HeapModel SpecBits SpecArm SpecHeap HeapThms.
Local Open Scope Z_scope.
@*)
From Coq Require Import ZArith List Lia Bool String.
From Verif Require Import HeapModel SpecBits SpecArm SpecHeap BitFacts BitOps BitMisc HelpFacts.
Local Open Scope Z_scope.

(** ** The heap *)
Lemma hset_length : forall h r b, List.length (hset h r b) = List.length h.
Proof. induction h as [|x h IH]; intros [|r] b; cbn; auto. Qed.
Lemma hget_same : forall h r b, live h r -> hget (hset h r b) r = b.
Proof. unfold live, hget. induction h as [|x h IH]; intros [|r] b H; cbn in *; try lia; auto. apply IH. lia. Qed.
Lemma hget_other : forall h r s b, s <> r -> hget (hset h r b) s = hget h s.
Proof.
  unfold hget. induction h as [|x h IH]; intros [|r] [|s] b H; cbn; auto; try congruence.
Qed.
Lemma hset_twice : forall h r b c, hset (hset h r b) r c = hset h r c.
Proof. induction h as [|x h IH]; intros [|r] b c; cbn; auto. f_equal. apply IH. Qed.
Lemma hset_id : forall h r, hset h r (hget h r) = h.
Proof. unfold hget. induction h as [|x h IH]; intros [|r]; cbn; auto. f_equal. apply IH. Qed.
Lemma hget_app : forall h b r, live h r -> hget (h ++ [b]) r = hget h r.
Proof. intros h b r H. unfold hget. now apply app_nth1. Qed.
Lemma hget_new : forall h b, hget (h ++ [b]) (List.length h) = b.
Proof. intros h b. unfold hget. rewrite app_nth2 by lia. now rewrite Nat.sub_diag. Qed.
Lemma live_hset : forall h r b s, live h s -> live (hset h r b) s.
Proof. unfold live. intros. now rewrite hset_length. Qed.
Lemma live_app : forall h b r, live h r -> live (h ++ [b]) r.
Proof. unfold live. intros. rewrite app_length. cbn. lia. Qed.
Lemma live_new : forall h b, live (h ++ [b]) (List.length h).
Proof. unfold live. intros. rewrite app_length. cbn. lia. Qed.
Lemma hset_app : forall h b r c, live h r -> hset (h ++ [b]) r c = (hset h r c ++ [b])%list.
Proof. unfold live. induction h as [|x h IH]; intros b [|r] c H; cbn in *; try lia; auto. f_equal. apply IH. lia. Qed.
Lemma heap_get : forall h r, heap_ok h -> live h r -> wf (hget h r).
Proof. intros h r H L. unfold hget. apply (Forall_nth wf h); auto. Qed.
Lemma live_ne_new : forall h r, live h r -> r <> List.length h.
Proof. unfold live. intros. lia. Qed.
Lemma read_wf : forall h v, heap_ok h -> live_val h v -> wf_val (hread h v).
Proof. intros h [r|v] H L; cbn in *; auto. now apply heap_get. Qed.

Lemma untouched_refl : forall h, untouched h h.
Proof. split; auto. Qed.
Lemma untouched_app : forall h b, untouched h (h ++ [b]).
Proof. intros h b r L. split; [now apply live_app|now apply hget_app]. Qed.
Lemma untouched_trans : forall h1 h2 h3, untouched h1 h2 -> untouched h2 h3 -> untouched h1 h3.
Proof. intros h1 h2 h3 A B r L. destruct (A r L) as [L2 E2]. destruct (B r L2) as [L3 E3]. split; congruence. Qed.
Lemma only_set : forall h x b, live h x -> only x h (hset h x b).
Proof. intros h x b L. split; [now apply live_hset|]. intros r Lr N. split; [now apply live_hset|now apply hget_other]. Qed.
Lemma only_app_set : forall h x b c, live h x -> only x h (hset (h ++ [c]) x b).
Proof.
  intros h x b c L. split; [now apply live_hset, live_app|]. intros r Lr N.
  split; [now apply live_hset, live_app|]. rewrite hget_other by auto. now apply hget_app.
Qed.
Lemma app_only_set : forall h b c, untouched h (hset (h ++ [c]) (List.length h) b).
Proof.
  intros h b c r L. split; [now apply live_hset, live_app|].
  rewrite hget_other by (now apply live_ne_new). now apply hget_app.
Qed.

Lemma h_set_ok : forall h x t, live h x -> h_set x t h = (hset h x (hget h t), Ok tt).
Proof.
  intros h x t L. unfold h_set, hbind, get_w, get_m, get_v, set_w, set_m, set_v.
  destruct (Nat.eq_dec t x) as [->|N].
  - rewrite !hset_twice. rewrite !hget_same by (repeat apply live_hset; auto). cbn [bw bv bm].
    destruct (hget h x); reflexivity.
  - rewrite !hset_twice. rewrite !(hget_other _ _ _ _ N). rewrite !hget_same by (repeat apply live_hset; auto).
    cbn [bw bv bm]. destruct (hget h t); reflexivity.
Qed.

Lemma h_new_ok : forall h v w b, bs_init (hread h v) w = Ok b -> h_new v w h = ((h ++ [b])%list, Ok (List.length h)).
Proof. intros h v w b E. unfold h_new. now rewrite E. Qed.
Lemma h_fresh_ok : forall f h x v b, f (hget h x) (hread h v) = Ok b -> h_fresh f x v h = ((h ++ [b])%list, Ok (List.length h)).
Proof. intros f h x v b E. unfold h_fresh. now rewrite E. Qed.
Lemma h_fresh_err : forall f h x v e, f (hget h x) (hread h v) = Err e -> h_fresh f x v h = (h, Err e).
Proof. intros f h x v b E. unfold h_fresh. now rewrite E. Qed.

(** ** In-place methods on [x], where the other operand is [o] *)
Lemma iset_ok : forall f h x o, live h x ->
  match f (hget h x) (hread h o) with
  | Ok b => h_iset f x o h = ((hset h x b ++ [b])%list, Ok (Some x))
  | Err e => h_iset f x o h = (h, Err e)
  end.
Proof.
  intros f h x o L. destruct (f (hget h x) (hread h o)) as [b|e] eqn:E.
  - unfold h_iset, hbind. rewrite (h_fresh_ok _ _ _ _ _ E). rewrite h_set_ok by (now apply live_app).
    rewrite hget_new. rewrite hset_app by auto. reflexivity.
  - unfold h_iset, hbind. rewrite (h_fresh_err _ _ _ _ _ E). reflexivity.
Qed.

Lemma iarith_ok : forall f h x o, live h x -> heap_ok h ->
  match arith_operand (hread h o) with
  | Ok None => h_iarith f x o h = (h, Ok None) /\ bs_arith f (hget h x) (hread h o) = Ok (hget h x)
  | _ => match bs_arith f (hget h x) (hread h o) with
         | Ok b => h_iarith f x o h = (hset h x b, Ok (Some x))
         | Err e => h_iarith f x o h = (h, Err e)
         end
  end.
Proof.
  intros f h x o L Hh. pose proof (heap_get _ _ Hh L) as W. unfold h_iarith, bs_arith. rewrite init_copy by auto. cbn [bind].
  destruct (arith_operand (hread h o)) as [[value|]|e]; cbn [bind]; auto.
  unfold hbind, get_v, get_m, set_v, hlift, hret.
  destruct (f (bv (hget h x)) value) as [v'|e]; cbn [bind]; auto.
  rewrite !hset_twice. rewrite !hget_same by (repeat apply live_hset; auto). cbn [bw bv bm]. reflexivity.
Qed.

Ltac hs := repeat (progress (rewrite ?hset_twice; rewrite ?hget_same by (repeat apply live_hset; auto); cbn [bw bv bm])).
Ltac hs_ne N := repeat (progress (rewrite ?hset_twice; rewrite ?(hget_other _ _ _ _ N);
  rewrite ?hget_same by (repeat apply live_hset; auto); cbn [bw bv bm])).

Lemma icat_ok : forall h x r, heap_ok h -> live h x -> live h r -> r <> x ->
  h_icat x r h = (hset h x (cat (hget h x) (hget h r)), Ok x).
Proof.
  intros h x r Hh L Lr N. pose proof (heap_get _ _ Hh L) as (Wx & _). pose proof (heap_get _ _ Hh Lr) as (Wr & _).
  pose proof (cat_ok _ _ (heap_get _ _ Hh L) (heap_get _ _ Hh Lr)) as C. unfold bs_cat in C.
  unfold py_shl in C. rewrite (proj2 (Z.ltb_ge _ _)) in C by lia. cbn [bind] in C.
  rewrite (proj2 (Z.ltb_ge _ _)) in C by lia. cbn [bind] in C.
  unfold h_icat, hbind, get_w, get_m, get_v, set_w, set_m, set_v, hlift, hret, py_shl.
  hs_ne N. rewrite (proj2 (Z.ltb_ge _ _)) by lia.
  hs_ne N. rewrite (proj2 (Z.ltb_ge _ _)) by lia.
  hs_ne N. do 2 f_equal. congruence.
Qed.

(** The same object on both sides *)
Lemma icat_self : forall h x, heap_ok h -> live h x ->
  let b := hget h x in
  h_icat x x h = (hset h x (mkbs (2 * bw b) (bv b * 2 ^ (2 * bw b) + bv b) (2 ^ (2 * bw b) - 1)), Ok x).
Proof.
  intros h x Hh L b. pose proof (heap_get _ _ Hh L) as (Wx & Vx & _).
  unfold h_icat, hbind, get_w, get_m, get_v, set_w, set_m, set_v, hlift, hret, py_shl. fold b in Wx, Vx.
  hs. rewrite (proj2 (Z.ltb_ge _ _)) by (fold b; lia).
  hs. rewrite (proj2 (Z.ltb_ge _ _)) by (fold b; lia).
  hs. fold b. replace (bw b + bw b) with (2 * bw b) by lia. rewrite shl1_ones by lia.
  rewrite lor_shift_add; [reflexivity|lia|].
  split; [lia|]. apply Z.lt_le_trans with (2 ^ bw b); [lia|]. apply pow2_le. lia.
Qed.

Lemma imod_ok : forall h x o, heap_ok h -> live h x -> live_val h o -> o <> HRef x ->
  if unsupported IMod o then h_imod x o h = (h, Ok None) /\ bs_mod (hget h x) (hread h o) = Ok (hget h x) else
  match bs_mod (hget h x) (hread h o) with
  | Ok b => exists h', h_imod x o h = (h', Ok (Some x)) /\ hget h' x = b /\ only x h h'
  | Err e => h_imod x o h = (h, Err e)
  end.
Proof.
  intros h x o Hh L Lo N. pose proof (heap_get _ _ Hh L) as W.
  assert (V : forall c, wf c -> exists h', h_icat x (List.length h) (h ++ [c]) = (h', Ok x) /\
    hget h' x = cat (hget h x) c /\ only x h h').
  { intros c Wc. assert (Hh' : heap_ok (h ++ [c])) by (apply Forall_app; split; auto).
    rewrite icat_ok; auto using live_app, live_new.
    - eexists. split; [reflexivity|]. rewrite hget_app, hget_new by auto. split.
      + apply hget_same. now apply live_app.
      + now apply only_app_set.
    - intros E. apply (live_ne_new _ _ L). auto. }
  assert (T : forall v w, wf_val v ->
    match bs_init v w with
    | Ok c => forall r, bs_cat (hget h x) c = r -> match r with
        | Ok b => exists h', (hdo r <- h_new (HVal v) w; hdo s <- h_icat x r; hret (Some s)) h = (h', Ok (Some x)) /\
                   hget h' x = b /\ only x h h'
        | Err e => False end
    | Err e => (hdo r <- h_new (HVal v) w; hdo s <- h_icat x r; hret (Some s)) h = (h, Err e)
    end).
  { intros v w Wv. destruct (bs_init v w) as [c|e] eqn:E.
    - intros r Hr. pose proof (init_wf _ _ _ E) as Wc. rewrite cat_ok in Hr by auto. subst r.
      destruct (V c Wc) as (h' & A & B & C). exists h'. split; [|auto].
      unfold hbind. rewrite (h_new_ok _ _ _ _ (E : bs_init (hread h (HVal v)) w = Ok c)). rewrite A. reflexivity.
    - unfold hbind, h_new. cbn [hread]. rewrite E. reflexivity. }
  destruct o as [r|v].
  - cbn [unsupported hread]. assert (Nr : r <> x) by congruence. cbn in Lo.
    rewrite mod_bits by (auto; now apply heap_get). cbn [h_imod]. unfold hbind. rewrite icat_ok by auto.
    eexists. split; [reflexivity|]. split; [now apply hget_same|now apply only_set].
  - cbn in Lo. destruct v as [|b|z|s|l|py l|]; cbn [unsupported hread h_imod bs_mod].
    + split; [reflexivity|now apply init_copy].
    + rewrite cat_ok by auto. destruct (V b Lo) as (h' & A & B & C). exists h'. split; [|auto].
      unfold hbind, alloc. rewrite A. reflexivity.
    + destruct ((z =? 0) || (z =? 1))%bool; [|reflexivity]. specialize (T (VInt z) (Some 1) I).
      destruct (bs_init (VInt z) (Some 1)) as [c|e]; cbn [bind]; [|exact T].
      specialize (T _ eq_refl). destruct (bs_cat (hget h x) c); [exact T|contradiction].
    + specialize (T (VStr s) None I).
      destruct (bs_init (VStr s) None) as [c|e]; cbn [bind]; [|exact T].
      specialize (T _ eq_refl). destruct (bs_cat (hget h x) c); [exact T|contradiction].
    + specialize (T (VSeq l) None I).
      destruct (bs_init (VSeq l) None) as [c|e]; cbn [bind]; [|exact T].
      specialize (T _ eq_refl). destruct (bs_cat (hget h x) c); [exact T|contradiction].
    + destruct py; [split; [reflexivity|now apply init_copy]|]. specialize (T (VBytearray Py3 l) None I).
      destruct (bs_init (VBytearray Py3 l) None) as [c|e]; cbn [bind]; [|exact T].
      specialize (T _ eq_refl). destruct (bs_cat (hget h x) c); [exact T|contradiction].
    + split; [reflexivity|now apply init_copy].
Qed.

(** One in-place method: what [x op= o] does unless [x] is both sides of [%=] *)
Lemma imethod_ok : forall op h x o, heap_ok h -> live h x -> live_val h o -> (op = IMod -> o <> HRef x) ->
  if unsupported op o then h_imethod op x o h = (h, Ok None) /\ value_of op (hget h x) (hread h o) = Ok (hget h x) else
  match value_of op (hget h x) (hread h o) with
  | Ok b => exists h', h_imethod op x o h = (h', Ok (Some x)) /\ hget h' x = b /\ only x h h'
  | Err e => h_imethod op x o h = (h, Err e)
  end.
Proof.
  intros op h x o Hh L Lo N.
  assert (A : forall f, match op with IAdd | ISub | IMul | IFloorDiv => True | _ => False end ->
    if unsupported op o then h_iarith f x o h = (h, Ok None) /\ bs_arith f (hget h x) (hread h o) = Ok (hget h x) else
    match bs_arith f (hget h x) (hread h o) with
    | Ok b => exists h', h_iarith f x o h = (h', Ok (Some x)) /\ hget h' x = b /\ only x h h'
    | Err e => h_iarith f x o h = (h, Err e)
    end).
  { intros f Hop. pose proof (iarith_ok f h x o L Hh) as K.
    assert (U : unsupported op o = match arith_operand (hread h o) with Ok None => true | _ => false end).
    { destruct op; try contradiction; destruct o as [r|[| | | | |py l|]]; try reflexivity;
        cbn [hread arith_operand unsupported]; destruct (bs_init (VStr s) None); reflexivity. }
    rewrite U. destruct (arith_operand (hread h o)) as [[value|]|e]; [|exact K|].
    - destruct (bs_arith f (hget h x) (hread h o)) as [b|e]; [|exact K].
      eexists. split; [exact K|]. split; [now apply hget_same|now apply only_set].
    - destruct (bs_arith f (hget h x) (hread h o)) as [b|e']; [|exact K].
      eexists. split; [exact K|]. split; [now apply hget_same|now apply only_set]. }
  assert (B : forall f, match f (hget h x) (hread h o) with
    | Ok b => exists h', h_iset f x o h = (h', Ok (Some x)) /\ hget h' x = b /\ only x h h'
    | Err e => h_iset f x o h = (h, Err e) end).
  { intros f. pose proof (iset_ok f h x o L) as K. destruct (f (hget h x) (hread h o)) as [b|e]; [|exact K].
    eexists. split; [exact K|]. rewrite <- hset_app by auto.
    split; [apply hget_same; now apply live_app|now apply only_app_set]. }
  destruct op; cbn [h_imethod value_of]; try (now apply A); try (now apply (imod_ok h x o Hh L Lo (N eq_refl)));
    cbn [unsupported]; apply B.
Qed.

(** ** The claims *)
(*@doc C78: the expression [x op y] changes no existing object, whether or not [x] and [y]
are the same one, and its value is a new object; if it raises, nothing has changed either. @*)
Lemma C78_expression_proof : forall op h x o, heap_ok h -> live h x -> live_val h o ->
  match value_of op (hget h x) (hread h o) with
  | Ok b => exists h' r, h_method op x o h = (h', Ok r) /\ hget h' r = b /\ live h' r /\ ~ live h r /\ untouched h h'
  | Err e => exists h', h_method op x o h = (h', Err e) /\ untouched h h'
  end.
Proof.
  intros op h x o Hh L Lo.
  assert (F : forall f, h_method op = h_fresh f -> value_of op = f ->
    match value_of op (hget h x) (hread h o) with
    | Ok b => exists h' r, h_method op x o h = (h', Ok r) /\ hget h' r = b /\ live h' r /\ ~ live h r /\ untouched h h'
    | Err e => exists h', h_method op x o h = (h', Err e) /\ untouched h h'
    end).
  { intros f E1 E2. rewrite E1, E2. destruct (f (hget h x) (hread h o)) as [b|e] eqn:E.
    - rewrite (h_fresh_ok _ _ _ _ _ E). exists (h ++ [b])%list, (List.length h).
      repeat split; auto using hget_new, live_new, live_app, hget_app. unfold live. lia.
    - rewrite (h_fresh_err _ _ _ _ _ E). exists h. split; [reflexivity|apply untouched_refl]. }
  assert (C : h_method op = h_copy_op (h_imethod op) ->
    match value_of op (hget h x) (hread h o) with
    | Ok b => exists h' r, h_method op x o h = (h', Ok r) /\ hget h' r = b /\ live h' r /\ ~ live h r /\ untouched h h'
    | Err e => exists h', h_method op x o h = (h', Err e) /\ untouched h h'
    end).
  { intros E1. rewrite E1. pose proof (heap_get _ _ Hh L) as W. unfold h_copy_op, hbind.
    rewrite (h_new_ok h (HRef x) None (hget h x) (init_copy _ W)).
    set (h1 := (h ++ [hget h x])%list). set (b := List.length h).
    assert (Hh1 : heap_ok h1) by (apply Forall_app; split; auto).
    assert (Lb : live h1 b) by apply live_new.
    assert (Lo1 : live_val h1 o) by (destruct o; cbn in *; auto; now apply live_app).
    assert (R : hread h1 o = hread h o) by (destruct o; cbn in *; auto; unfold h1; now rewrite hget_app).
    assert (N : op = IMod -> o <> HRef b) by (intros _ ->; cbn in Lo; unfold live, b in Lo; lia).
    pose proof (imethod_ok op h1 b o Hh1 Lb Lo1 N) as K.
    assert (Eb : hget h1 b = hget h x) by apply hget_new. rewrite Eb, R in K.
    destruct (unsupported op o).
    - destruct K as [K1 K2]. rewrite K2, K1. exists h1, b. repeat split; auto.
      + unfold live, b. lia. + now apply live_app. + now apply hget_app.
    - destruct (value_of op (hget h x) (hread h o)) as [c|e].
      + destruct K as (h' & K1 & K2 & K3 & K4). rewrite K1. exists h', b. repeat split; auto.
        * unfold live, b. lia.
        * apply K4; [now apply live_app|now apply live_ne_new].
        * rewrite (proj2 (K4 r (live_app _ _ _ H) (live_ne_new _ _ H))). now apply hget_app.
      + rewrite K. exists h1. split; [reflexivity|apply untouched_app]. }
  destruct op; try (apply C; reflexivity); (eapply F; reflexivity).
Qed.
(*@ex
Example C78_expression_ex : forall h' r, h_method IMod 0%nat (HRef 0%nat) [bits 2 3] = (h', Ok r) ->
  hget h' r = bits 4 15 /\ hget h' 0%nat = bits 2 3.
Proof. intros h' r E. vm_compute in E. inversion E. split; reflexivity. Qed.
@*)

(*@doc C79: the statement [x op= y] leaves in the object [x] the value of the expression
[x op y], keeps the name bound to that object and changes no other; if it raises, [x] is
unchanged.  With an operand the method does not support the name gets a copy of [x].  The
only case left out is [x %= x]. @*)
Lemma C79_assignment_proof : forall op h x o, heap_ok h -> live h x -> live_val h o -> (op = IMod -> o <> HRef x) ->
  match value_of op (hget h x) (hread h o) with
  | Ok b =>
    if unsupported op o
    then exists h' r, h_assign op x o h = (h', Ok r) /\ b = hget h x /\ hget h' r = b /\ ~ live h r /\ untouched h h'
    else exists h', h_assign op x o h = (h', Ok x) /\ hget h' x = b /\ only x h h'
  | Err e => exists h', h_assign op x o h = (h', Err e) /\ untouched h h'
  end.
Proof.
  intros op h x o Hh L Lo N. pose proof (imethod_ok op h x o Hh L Lo N) as K. unfold h_assign, hbind.
  destruct (unsupported op o).
  - destruct K as [K1 K2]. rewrite K2, K1. pose proof (C78_expression_proof op h x o Hh L Lo) as E. rewrite K2 in E.
    destruct E as (h' & r & E1 & E2 & E3 & E4 & E5). exists h', r. repeat split; auto; apply E5; auto.
  - destruct (value_of op (hget h x) (hread h o)) as [b|e].
    + destruct K as (h' & K1 & K2 & K3). rewrite K1. exists h'. split; [reflexivity|auto].
    + rewrite K. exists h. split; [reflexivity|apply untouched_refl].
Qed.
(*@ex
Example C79_assignment_ex : h_assign ISub 1%nat (HRef 1%nat) [bits 8 7; bits 8 9] = ([bits 8 7; bits 8 0], Ok 1%nat).
Proof. vm_compute. reflexivity. Qed.
@*)
(*@doc C79, [x %= x] exactly: the width of the right side is read after it was doubled, so
the value is shifted twice as far as it should be and does not fit. @*)
Lemma C79_double_proof : forall h x, heap_ok h -> live h x ->
  let b := hget h x in
  exists h', h_assign IMod x (HRef x) h = (h', Ok x) /\ only x h h' /\
    hget h' x = mkbs (2 * bw b) (bv b * 2 ^ (2 * bw b) + bv b) (2 ^ (2 * bw b) - 1) /\
    (wf (hget h' x) <-> bv b = 0).
Proof.
  intros h x Hh L b. unfold h_assign, hbind. cbn [h_imethod h_imod]. unfold hbind.
  rewrite icat_self by auto. eexists. split; [reflexivity|]. split; [now apply only_set|].
  rewrite hget_same by auto. fold b. split; [reflexivity|].
  pose proof (heap_get _ _ Hh L) as (Wx & Vx & _). fold b in Wx, Vx.
  pose proof (pow2_pos (2 * bw b)). unfold wf. cbn [bw bv bm]. split.
  - intros (_ & B & _). nia.
  - intros ->. repeat split; lia.
Qed.
(*@ex
Example C79_double_ex : h_assign IMod 0%nat (HRef 0%nat) [bits 2 1] = ([mkbs 4 17 15], Ok 0%nat).
Proof. vm_compute. reflexivity. Qed.
@*)
Lemma C79_double_refuted_proof : exists h x b h', heap_ok h /\ live h x /\
  value_of IMod (hget h x) (VBits (hget h x)) = Ok b /\
  h_assign IMod x (HRef x) h = (h', Ok x) /\ hget h' x <> b /\ ~ wf (hget h' x).
Proof.
  exists [bits 2 1], 0%nat, (bits 4 5), [mkbs 4 17 15].
  split; [repeat constructor; vm_compute; congruence|]. split; [unfold live; cbn; lia|].
  split; [reflexivity|]. split; [reflexivity|]. split; [vm_compute; congruence|].
  intros (_ & B & _). vm_compute in B. destruct B as [_ B]. congruence.
Qed.

(** ** Methods without a second operand *)
Lemma h_invert_ok : forall h x, live h x -> heap_ok h ->
  let b := bits (bw (hget h x)) (2 ^ bw (hget h x) - 1 - bv (hget h x)) in
  h_invert x h = ((hset h x b ++ [b])%list, Ok x).
Proof.
  intros h x L Hh b. pose proof (heap_get _ _ Hh L) as W. pose proof (inverted_ok _ W) as E.
  unfold bs_inverted in E. unfold h_invert, hbind, get_m, get_v, get_w.
  rewrite (h_new_ok h (HVal _) _ b (E : bs_init (hread h (HVal _)) _ = Ok b)).
  rewrite h_set_ok by (now apply live_app). rewrite hget_new. rewrite hset_app by auto. reflexivity.
Qed.

(*@doc C78: [~x] and [x.invert()] change [x] itself, to its complement, and return [x];
[x.reverse()] likewise; no other object changes. @*)
Lemma C78_invert_proof : forall h x, heap_ok h -> live h x ->
  exists h', h_invert x h = (h', Ok x) /\ only x h h' /\
    hget h' x = bits (bw (hget h x)) (2 ^ bw (hget h x) - 1 - bv (hget h x)).
Proof.
  intros h x Hh L. rewrite h_invert_ok by auto. eexists. split; [reflexivity|].
  rewrite <- hset_app by auto. split; [now apply only_app_set|]. apply hget_same. now apply live_app.
Qed.
(*@ex
Example C78_invert_ex : h_invert 0%nat [bits 4 5; bits 4 6] = ([bits 4 10; bits 4 6; bits 4 10], Ok 0%nat).
Proof. vm_compute. reflexivity. Qed.
@*)
Lemma C78_reverse_proof : forall h x, heap_ok h -> live h x ->
  match bs_reversed (hget h x) with
  | Ok b => exists h', h_reverse x h = (h', Ok x) /\ only x h h' /\ hget h' x = b
  | Err e => h_reverse x h = (h, Err e)
  end.
Proof.
  intros h x Hh L. unfold h_reverse, hbind, h_fresh, hret. destruct (bs_reversed (hget h x)) as [b|e] eqn:E; [|reflexivity].
  unfold alloc. rewrite h_set_ok by (now apply live_app). eexists. split; [reflexivity|]. rewrite hget_new.
  split; [now apply only_app_set|]. apply hget_same. now apply live_app.
Qed.
(*@ex
Example C78_reverse_ex : exists h', h_reverse 1%nat [bits 4 5; bits 4 1] = (h', Ok 1%nat) /\ hget h' 1%nat = bits 4 8.
Proof. eexists. split; vm_compute; reflexivity. Qed.
@*)

(*@doc C78: reading [x.signed] gives the two's complement value the first time, but a
negative [x] has become its own complement; nothing else changes. @*)
Lemma C78_signed_proof : forall h x, heap_ok h -> live h x ->
  exists h' z b, h_signed x h = (h', Ok z) /\ bs_signed (hget h x) = Ok (b, z) /\ hget h' x = b /\ only x h h'.
Proof.
  intros h x Hh L. pose proof (heap_get _ _ Hh L) as W. unfold h_signed, hbind, get_w, get_v, hret.
  destruct (Z.ltb_spec (bw (hget h x)) 2) as [S|S].
  { exists h, 0, (hget h x). rewrite signed_short by exact S. repeat split; auto. }
  unfold bs_signed. rewrite (proj2 (Z.ltb_ge _ _)) by exact S.
  destruct (negb (Z.land (Z.shiftr (bv (hget h x)) (bw (hget h x) - 1)) 1 =? 0)).
  - rewrite invert_ok by exact W. rewrite h_invert_ok by auto. cbn [bind].
    rewrite <- hset_app by auto. rewrite hget_same by (now apply live_app).
    eexists _, _, _. split; [reflexivity|]. split; [reflexivity|]. split; [|now apply only_app_set].
    apply hget_same. now apply live_app.
  - eexists _, _, _. split; [reflexivity|]. split; [reflexivity|]. repeat split; auto.
Qed.
(*@ex
Example C78_signed_ex : exists h', h_signed 0%nat [bits 4 14] = (h', Ok (-2)) /\ hget h' 0%nat = bits 4 1.
Proof. eexists. split; vm_compute; reflexivity. Qed.
@*)

(*@doc C78: [sign_extend] and [zero_extend] to the present width return the object itself, to
a greater width a new one, to a smaller one ValueError; they change nothing. @*)
Lemma C78_extend_proof : forall h x w, heap_ok h -> live h x ->
  (w < bw (hget h x) -> h_zero_extend x w h = (h, Err ValueError) /\ h_sign_extend x w h = (h, Err ValueError)) /\
  (w = bw (hget h x) -> h_zero_extend x w h = (h, Ok x) /\ h_sign_extend x w h = (h, Ok x)) /\
  (bw (hget h x) < w ->
    (exists h' r, h_zero_extend x w h = (h', Ok r) /\ ~ live h r /\ untouched h h' /\
       bs_zero_extend (hget h x) w = Ok (hget h' r)) /\
    match bs_sign_extend (hget h x) w with
    | Ok b => exists h' r, h_sign_extend x w h = (h', Ok r) /\ ~ live h r /\ untouched h h' /\ hget h' r = b
    | Err e => h_sign_extend x w h = (h, Err e)
    end).
Proof.
  intros h x w Hh L. pose proof (heap_get _ _ Hh L) as W. pose proof (proj1 W) as W0.
  unfold h_zero_extend, h_sign_extend, hbind, get_w, hlift, hret.
  split; [|split].
  - intros H. rewrite (proj2 (Z.ltb_lt _ _)) by exact H. auto.
  - intros ->. rewrite Z.ltb_irrefl, Z.eqb_refl. auto.
  - intros H. rewrite (proj2 (Z.ltb_ge _ _)) by lia. rewrite (proj2 (Z.eqb_neq _ _)) by lia. split.
    + unfold bs_zero_extend. rewrite (proj2 (Z.ltb_ge _ _)) by lia. rewrite (proj2 (Z.eqb_neq _ _)) by lia.
      unfold h_new. cbn [hread]. destruct (bs_init (VBits (hget h x)) (Some w)) as [b|e] eqn:E.
      * unfold alloc. eexists _, _. split; [reflexivity|]. split; [unfold live; lia|].
        split; [apply untouched_app|]. now rewrite hget_new.
      * exfalso. unfold bs_init in E. cbn [bs_raw bind] in E. rewrite finish_ok in E by lia. discriminate.
    + unfold h_fresh. destruct (bs_sign_extend (hget h x) w) as [b|e]; [|reflexivity].
      unfold alloc. eexists _, _. split; [reflexivity|]. split; [unfold live; lia|].
      split; [apply untouched_app|]. apply hget_new.
Qed.
(*@ex
Example C78_extend_ex : h_zero_extend 0%nat 4 [bits 4 5] = ([bits 4 5], Ok 0%nat) /\
  h_sign_extend 0%nat 8 [bits 4 9] = ([bits 4 9; bits 8 0xf9], Ok 1%nat).
Proof. split; reflexivity. Qed.
@*)
(*@doc ... so changing the result of an extension to the same width changes the original. @*)
Lemma C78_extend_shares_proof : forall op h x o, heap_ok h -> live h x -> live_val h o -> (op = IMod -> o <> HRef x) ->
  unsupported op o = false ->
  forall b, value_of op (hget h x) (hread h o) = Ok b ->
  exists h', (hdo y <- h_zero_extend x (bw (hget h x)); h_assign op y o) h = (h', Ok x) /\ hget h' x = b.
Proof.
  intros op h x o Hh L Lo N U b E. unfold hbind.
  rewrite (proj1 (proj1 (proj2 (C78_extend_proof h x (bw (hget h x)) Hh L)) eq_refl)).
  pose proof (C79_assignment_proof op h x o Hh L Lo N) as K. rewrite E, U in K.
  destruct K as (h' & K1 & K2 & _). eauto.
Qed.
(*@ex
Example C78_extend_shares_ex : (hdo y <- h_zero_extend 0%nat 8; h_assign IAdd y (HVal (VInt 1))) [bits 8 41] =
  ([bits 8 42], Ok 0%nat).
Proof. vm_compute. reflexivity. Qed.
@*)

(** ** Item assignment *)
Lemma hbind_ok : forall A B (m : hcomp A) (f : A -> hcomp B) h h' a, m h = (h', Ok a) -> hbind m f h = f a h'.
Proof. intros A B m f h h' a E. unfold hbind. now rewrite E. Qed.
Lemma hbind_err : forall A B (m : hcomp A) (f : A -> hcomp B) h h' e, m h = (h', Err e) -> hbind m f h = (h', Err e).
Proof. intros A B m f h h' a E. unfold hbind. now rewrite E. Qed.

(*@doc C79: item assignment from another object (or an int, a text) changes [x] as the model
of item assignment on values says, and nothing else; if it raises, nothing changes. @*)
Lemma C79_setitem_proof : forall h x k o, heap_ok h -> live h x -> live_val h o -> o <> HRef x \/ (exists i, k = KInt i) ->
  match bs_setitem (hget h x) k (hread h o) with
  | Ok b => exists h', h_setitem x k o h = (h', Ok tt) /\ hget h' x = b /\ only x h h'
  | Err e => exists h', h_setitem x k o h = (h', Err e) /\ untouched h h'
  end.
Proof.
  intros h x k o Hh L Lo N. pose proof (heap_get _ _ Hh L) as W. destruct W as (W0 & W1 & W2).
  destruct k as [i|s|]; cbn [bs_setitem h_setitem].
  - unfold bs_setbit, hbind, get_w, get_v, get_m, set_v, hlift, hret.
    destruct (bw (hget h x) <=? i) eqn:Ei; [exists h; split; [reflexivity|apply untouched_refl]|].
    assert (V : forall z,
      match (let key := if i <? 0 then bw (hget h x) + i else i in
             let* one := py_shl 1 key in
             let* bit := py_shl (Z.land z 1) key in
             Ok (mkbs (bw (hget h x)) (Z.lor (Z.land (bv (hget h x)) (Z.land (bm (hget h x)) (Z.lnot one))) bit) (bm (hget h x)))) with
      | Ok b => exists h', (let (h', r) := (h, py_shl 1 (if i <? 0 then bw (hget h x) + i else i)) in
          match r with
          | Ok one => let (h'0, r0) := (h', py_shl (Z.land z 1) (if i <? 0 then bw (hget h x) + i else i)) in
             match r0 with
             | Ok bit => (hset h'0 x (mkbs (bw (hget h'0 x)) (Z.lor (Z.land (bv (hget h' x)) (Z.land (bm (hget h x)) (Z.lnot one))) bit) (bm (hget h'0 x))), Ok tt)
             | Err e => (h'0, Err e) end
          | Err e => (h', Err e) end) = (h', Ok tt) /\ hget h' x = b /\ only x h h'
      | Err e => exists h', (let (h', r) := (h, py_shl 1 (if i <? 0 then bw (hget h x) + i else i)) in
          match r with
          | Ok one => let (h'0, r0) := (h', py_shl (Z.land z 1) (if i <? 0 then bw (hget h x) + i else i)) in
             match r0 with
             | Ok bit => (hset h'0 x (mkbs (bw (hget h'0 x)) (Z.lor (Z.land (bv (hget h' x)) (Z.land (bm (hget h x)) (Z.lnot one))) bit) (bm (hget h'0 x))), Ok tt)
             | Err e => (h'0, Err e) end
          | Err e => (h', Err e) end) = (h', Err e) /\ untouched h h'
      end).
    { intros z. cbv zeta. destruct (py_shl 1 (if i <? 0 then bw (hget h x) + i else i)) as [one|e]; cbn [bind];
        [|exists h; split; [reflexivity|apply untouched_refl]].
      destruct (py_shl (Z.land z 1) (if i <? 0 then bw (hget h x) + i else i)) as [bit|e]; cbn [bind];
        [|exists h; split; [reflexivity|apply untouched_refl]].
      eexists. split; [reflexivity|]. split; [now apply hget_same|now apply only_set]. }
    destruct o as [r|[|b|z|t|l|py l|]]; cbn [hread bind];
      try (exists h; split; [reflexivity|apply untouched_refl]); try apply V.
    + destruct (negb (bw (hget h r) =? 1)); cbn [bind]; [exists h; split; [reflexivity|apply untouched_refl]|apply V].
    + destruct (negb (bw b =? 1)); cbn [bind]; [exists h; split; [reflexivity|apply untouched_refl]|apply V].
  - assert (No : o <> HRef x) by (destruct N as [N|[i N]]; [exact N|discriminate]).
    unfold bs_setslice. rewrite (hbind_ok _ _ (get_w x) _ h h (bw (hget h x)) eq_refl).
    destruct (slice_indices s (bw (hget h x))) as [[[start stop] step]|e]; cbn [bind];
      [|exists h; split; [reflexivity|apply untouched_refl]].
    rewrite (hbind_ok _ _ (hlift (Ok (start, stop, step))) _ h h (start, stop, step) eq_refl). cbv beta iota.
    destruct (negb (step =? 1)); [exists h; split; [reflexivity|apply untouched_refl]|].
    assert (V : forall h1 t c, live h1 x -> untouched h h1 -> live h1 t -> t <> x -> hget h1 t = c ->
      match (let* one := py_shl 1 (stop - start) in
             let* mask := py_shl (one - 1) start in
             let* sv := py_shl (bv c) start in
             Ok (mkbs (bw (hget h x)) (Z.lor (Z.land (bv (hget h x)) (Z.lnot mask)) (Z.land sv mask)) (bm (hget h x)))) with
      | Ok b => exists h', (hdo one <- hlift (py_shl 1 (stop - start));
          hdo mask <- hlift (py_shl (one - 1) start);
          hdo v <- get_v x;
          hdo _ <- set_v x (Z.land v (Z.lnot mask));
          hdo v <- get_v x;
          hdo u <- get_v t;
          hdo sv <- hlift (py_shl u start);
          set_v x (Z.lor v (Z.land sv mask))) h1 = (h', Ok tt) /\ hget h' x = b /\ only x h h'
      | Err e => exists h', (hdo one <- hlift (py_shl 1 (stop - start));
          hdo mask <- hlift (py_shl (one - 1) start);
          hdo v <- get_v x;
          hdo _ <- set_v x (Z.land v (Z.lnot mask));
          hdo v <- get_v x;
          hdo u <- get_v t;
          hdo sv <- hlift (py_shl u start);
          set_v x (Z.lor v (Z.land sv mask))) h1 = (h', Err e) /\ untouched h h'
      end).
    { intros h1 t c L1 U1 Lt Nt <-. unfold hbind, hlift, get_v, set_v.
      destruct (py_shl 1 (stop - start)) as [one|e]; cbn [bind]; [|exists h1; split; [reflexivity|exact U1]].
      unfold py_shl. destruct (Z.ltb_spec start 0) as [Hs|Hs]; cbn [bind]; [exists h1; split; [reflexivity|exact U1]|].
      eexists. split; [reflexivity|]. hs_ne Nt. rewrite (proj2 (U1 x L)). split.
      - reflexivity.
      - split; [now apply live_hset|]. intros r Lr Nr. destruct (U1 r Lr) as [Lr1 Er1].
        split; [now apply live_hset|]. now rewrite hget_other. }
    destruct o as [r|[|b|z|t|l|py l|]]; cbn [hread bind].
    + rewrite (hbind_ok _ _ (hret r) _ h h r eq_refl).
      apply (V h r (hget h r)); auto using untouched_refl.
    + exists h. split; [reflexivity|apply untouched_refl].
    + rewrite (hbind_ok _ _ (alloc b) _ h (h ++ [b])%list (List.length h) eq_refl).
      apply (V (h ++ [b])%list (List.length h) b); auto using live_app, untouched_app, live_new, hget_new.
      intros E. now apply (live_ne_new h x L).
    + destruct (bs_init (VInt z) None) as [b|e] eqn:E; cbn [bind];
        [|exists h; split; [apply hbind_err; unfold h_new; cbn [hread]; now rewrite E|apply untouched_refl]].
      rewrite (hbind_ok _ _ (h_new (HVal (VInt z)) None) _ h (h ++ [b])%list (List.length h)) by (now apply h_new_ok).
      apply (V (h ++ [b])%list (List.length h) b); auto using live_app, untouched_app, live_new, hget_new.
      intros EE. now apply (live_ne_new h x L).
    + destruct (bs_init (VStr t) None) as [b|e] eqn:E; cbn [bind];
        [|exists h; split; [apply hbind_err; unfold h_new; cbn [hread]; now rewrite E|apply untouched_refl]].
      rewrite (hbind_ok _ _ (h_new (HVal (VStr t)) None) _ h (h ++ [b])%list (List.length h)) by (now apply h_new_ok).
      apply (V (h ++ [b])%list (List.length h) b); auto using live_app, untouched_app, live_new, hget_new.
      intros EE. now apply (live_ne_new h x L).
    + exists h. split; [reflexivity|apply untouched_refl].
    + exists h. split; [reflexivity|apply untouched_refl].
    + exists h. split; [reflexivity|apply untouched_refl].
  - exists h. split; [reflexivity|apply untouched_refl].
Qed.
(*@ex
Example C79_setitem_ex : h_setitem 0%nat (KSlice (sl 4 8)) (HRef 1%nat) [bits 8 0x12; bits 4 0xf] =
  ([bits 8 0xf2; bits 4 0xf], Ok tt).
Proof. vm_compute. reflexivity. Qed.
@*)

(*@doc C79 does not hold of [x[start:stop] = x]: the bits are cleared before they are read, so
a bit of the slice is copied only if its source lies below the slice. @*)
Lemma C79_slice_self_proof : forall h x s start stop, heap_ok h -> live h x ->
  slice_bounds s (bw (hget h x)) = Some (start, stop, 1) -> start <= stop ->
  exists h', h_setitem x (KSlice s) (HRef x) h = (h', Ok tt) /\ only x h h' /\
    bw (hget h' x) = bw (hget h x) /\
    forall j, 0 <= j < bw (hget h x) ->
      bit (hget h' x) j =
        if (start <=? j) && (j <? stop) then (j - start <? start) && bit (hget h x) (j - start)
        else bit (hget h x) j.
Proof.
  intros h x s start stop Hh L Hs Hle. pose proof (heap_get _ _ Hh L) as (Hw & Hv & Hm).
  destruct (slice_bounds_range _ _ _ _ _ Hw Hs) as (_ & Hr & _). specialize (Hr ltac:(lia)).
  cbn [h_setitem]. rewrite (hbind_ok _ _ (get_w x) _ h h (bw (hget h x)) eq_refl).
  rewrite slice_indices_spec, Hs by lia.
  rewrite (hbind_ok _ _ (hlift (Ok (start, stop, 1))) _ h h (start, stop, 1) eq_refl). cbv beta iota.
  change (negb (1 =? 1)) with false. cbv iota.
  rewrite (hbind_ok _ _ (hret x) _ h h x eq_refl).
  unfold hbind, hlift, get_v, set_v, py_shl.
  destruct (Z.ltb_spec (stop - start) 0); [lia|]. destruct (Z.ltb_spec start 0); [lia|].
  rewrite shl1_ones by lia. rewrite !hget_same by auto. rewrite hset_twice. cbn [bw bv bm].
  set (mask := Z.shiftl (2 ^ (stop - start) - 1) start).
  assert (M : forall j, 0 <= j -> Z.testbit mask j = (start <=? j) && (j <? stop)).
  { intros j Hj. unfold mask. rewrite Z.shiftl_spec by lia.
    replace (2 ^ (stop - start) - 1) with (Z.ones (stop - start)) by (rewrite Z.ones_equiv; lia).
    destruct (Z.leb_spec start j); cbn [andb].
    - destruct (Z.ltb_spec j stop); [apply Z.ones_spec_low|apply Z.ones_spec_high]; lia.
    - apply Z.testbit_neg_r. lia. }
  eexists. split; [reflexivity|]. split; [now apply only_set|]. rewrite hget_same by auto. split; [reflexivity|].
  intros j Hj. unfold bit at 1. cbn [bv]. rewrite Z.lor_spec, !Z.land_spec, Z.lnot_spec, M by lia.
  rewrite Z.shiftl_spec by lia. unfold bit.
  destruct ((start <=? j) && (j <? stop)) eqn:E; cbn [negb];
    rewrite ?andb_false_r, ?andb_true_r, ?orb_false_r; [|reflexivity]. cbn [orb].
  rewrite Z.land_spec, Z.lnot_spec, M by lia. rewrite andb_comm. f_equal.
  destruct (Z.leb_spec start (j - start)), (Z.ltb_spec (j - start) start), (Z.ltb_spec (j - start) stop); cbn [andb negb]; lia.
Qed.
(*@ex
Example C79_slice_self_ex : h_setitem 0%nat (KSlice (sl 4 8)) (HRef 0%nat) [bits 8 0x12] = ([bits 8 0x22], Ok tt).
Proof. vm_compute. reflexivity. Qed.
@*)
Lemma C79_slice_self_refuted_proof : exists h x k b h', heap_ok h /\ live h x /\
  bs_setitem (hget h x) k (VBits (hget h x)) = Ok b /\
  h_setitem x k (HRef x) h = (h', Ok tt) /\ hget h' x <> b.
Proof.
  exists [bits 8 0xff], 0%nat, (KSlice (sl 0 8)), (bits 8 0xff), [bits 8 0].
  split; [constructor; [apply wf_bits; lia|constructor]|]. split; [unfold live; cbn; lia|].
  split; [reflexivity|]. split; [reflexivity|]. discriminate.
Qed.

(** ** Addition of objects *)
Lemma Forall_hset : forall h x b, heap_ok h -> wf b -> heap_ok (hset h x b).
Proof.
  unfold heap_ok. intros h x b Hh Hb. revert x. induction Hh as [|a h Ha Hh IH]; intros [|x]; cbn [hset]; auto.
Qed.
Lemma h_signed_ok : forall h x, heap_ok h -> live h x ->
  exists h' z b, h_signed x h = (h', Ok z) /\ bs_signed (hget h x) = Ok (b, z) /\ hget h' x = b /\ only x h h' /\ heap_ok h'.
Proof.
  intros h x Hh L. pose proof (heap_get _ _ Hh L) as W. unfold h_signed, hbind, get_w, get_v, hret.
  destruct (Z.ltb_spec (bw (hget h x)) 2) as [S|S].
  { exists h, 0, (hget h x). rewrite signed_short by exact S. repeat split; auto. }
  unfold bs_signed. rewrite (proj2 (Z.ltb_ge _ _)) by exact S.
  destruct (negb (Z.land (Z.shiftr (bv (hget h x)) (bw (hget h x) - 1)) 1 =? 0)).
  - rewrite invert_ok by exact W. rewrite h_invert_ok by auto. cbn [bind].
    rewrite <- hset_app by auto. rewrite hget_same by (now apply live_app).
    eexists _, _, _. split; [reflexivity|]. split; [reflexivity|]. split; [|split; [now apply only_app_set|]].
    + apply hget_same. now apply live_app.
    + rewrite hset_app by auto. apply Forall_app. split; [|constructor; [|constructor]; apply wf_bits; apply W].
      apply Forall_hset; [exact Hh|apply wf_bits; apply W].
  - eexists _, _, _. split; [reflexivity|]. split; [reflexivity|]. repeat split; auto.
Qed.

(*@doc C80: AddWithCarry on three different objects computes what the model of it on values
computes, for the result, the flags and what becomes of the operands. @*)
Lemma C80_distinct_proof : forall h x y c, heap_ok h -> live h x -> live h y -> live h c ->
  x <> y -> x <> c -> y <> c ->
  match AddWithCarry (hget h x) (hget h y) (hget h c) with
  | Ok ((bx, by_), (b, co, v)) => exists h' r,
      h_AddWithCarry x y c h = (h', Ok (r, bv co, bv v)) /\ ~ live h r /\
      hget h' x = bx /\ hget h' y = by_ /\ hget h' r = b /\
      (forall s, live h s -> s <> x -> s <> y -> hget h' s = hget h s)
  | Err e => h_AddWithCarry x y c h = (h, Err e)
  end.
Proof.
  intros h x y c Hh Lx Ly Lc Nxy Nxc Nyc.
  unfold AddWithCarry, h_AddWithCarry.
  do 2 (erewrite hbind_ok by reflexivity).
  destruct (bw (hget h x) =? bw (hget h y)); [|reflexivity]. cbn [assert_ bind].
  do 4 (erewrite hbind_ok by reflexivity). unfold bs_unsigned.
  destruct (h_signed_ok h x Hh Lx) as (h1 & sx & bx & E1 & F1 & G1 & (L1 & O1) & K1).
  rewrite F1. cbn [bind]. erewrite hbind_ok by exact E1.
  destruct (O1 y Ly ltac:(congruence)) as [Ly1 Ey1]. destruct (O1 c Lc ltac:(congruence)) as [Lc1 Ec1].
  destruct (h_signed_ok h1 y K1 Ly1) as (h2 & sy & by_ & E2 & F2 & G2 & (L2 & O2) & K2).
  rewrite Ey1 in F2. rewrite F2. cbn [bind]. erewrite hbind_ok by exact E2.
  destruct (O2 c Lc1 ltac:(congruence)) as [Lc2 Ec2]. destruct (O2 x L1 ltac:(congruence)) as [Lx2 Ex2].
  do 2 (erewrite hbind_ok by reflexivity).
  assert (Wb : bw bx = bw (hget h x)).
  { pose proof (heap_get _ _ Hh Lx) as W. destruct (Z.ltb_spec (bw (hget h x)) 2) as [S|S].
    - rewrite signed_short in F1 by exact S. congruence.
    - destruct (signed_value _ W S) as (b' & Q1 & Q2). rewrite Q1 in F1. injection F1 as <- _. rewrite Q2.
      destruct (_ <? _); reflexivity. }
  rewrite Ex2, G1, Wb.
  pose proof (heap_get _ _ Hh Lx) as (W0 & _).
  rewrite Ec2, Ec1.
  set (sum := bv (hget h x) + bv (hget h y) + bv (hget h c)).
  rewrite init_int by exact W0. cbn [bind].
  erewrite hbind_ok by (apply h_new_ok; cbn [hread]; apply init_int; exact W0).
  erewrite hbind_ok by reflexivity. rewrite hget_new.
  assert (K3 : heap_ok (h2 ++ [bits (bw (hget h x)) sum])).
  { apply Forall_app. split; [exact K2|]. constructor; [apply wf_bits; lia|constructor]. }
  destruct (h_signed_ok _ _ K3 (live_new h2 (bits (bw (hget h x)) sum))) as (h4 & sr & br & E4 & F4 & G4 & (L4 & O4) & K4).
  rewrite hget_new in F4. rewrite F4. cbn [bind]. erewrite hbind_ok by exact E4.
  assert (A : forall s, live h s -> live h2 s).
  { intros s Ls. destruct (Nat.eq_dec s x) as [->|N1]; [exact Lx2|]. destruct (Nat.eq_dec s y) as [->|N2]; [exact L2|].
    apply O2; [|exact N2]. now apply O1. }
  assert (B : forall s, live h2 s -> hget h4 s = hget h2 s).
  { intros s Ls. destruct (O4 s (live_app _ _ _ Ls) (live_ne_new _ _ Ls)) as [_ ->]. now apply hget_app. }
  exists h4, (List.length h2). split.
  { unfold hret. do 3 f_equal; [f_equal|]; [destruct (_ =? sum)|destruct (sr =? _)]; reflexivity. }
  split. { intros Q. apply A in Q. unfold live in Q. lia. }
  split; [rewrite B by auto; congruence|]. split; [rewrite B by auto; exact G2|]. split; [exact G4|].
  intros s Ls N1 N2. rewrite B by auto. rewrite (proj2 (O2 s (proj1 (O1 s Ls N1)) N2)). now apply O1.
Qed.
(*@ex
Example C80_distinct_ex : exists h', h_AddWithCarry 0%nat 1%nat 2%nat [bits 8 127; bits 8 1; bits 1 0] = (h', Ok (3%nat, 0, 1)).
Proof. eexists. vm_compute. reflexivity. Qed.
@*)

(*@doc C80: AddWithCarry of an object with itself.  If it is not negative, nothing is special;
if it is, the first reading of [signed] complements it, the second reads the complement, and
the signed sum is one less than the carry, whatever the object is. @*)
Lemma C80_same_proof : forall h x c, heap_ok h -> live h x -> live h c -> x <> c -> 2 <= bw (hget h x) ->
  let w := bw (hget h x) in
  let v := bv (hget h x) in
  let sum := v + v + bv (hget h c) in
  let signed_sum := if v <? 2 ^ (w - 1) then v + v + bv (hget h c) else bv (hget h c) - 1 in
  exists h' r,
    h_AddWithCarry x x c h = (h', Ok (r, (if sum mod 2 ^ w =? sum then 0 else 1), (if twos w sum =? signed_sum then 0 else 1))) /\
    ~ live h r /\
    hget h' x = (if v <? 2 ^ (w - 1) then hget h x else bits w (2 ^ w - 1 - v)) /\
    hget h' r = (if sum mod 2 ^ w <? 2 ^ (w - 1) then bits w sum else bits w (2 ^ w - 1 - sum mod 2 ^ w)) /\
    (forall s, live h s -> s <> x -> hget h' s = hget h s).
Proof.
  intros h x c Hh Lx Lc Nxc S w v sum signed_sum.
  pose proof (heap_get _ _ Hh Lx) as W. pose proof W as (W0 & W1 & W2).
  assert (P : 2 ^ w = 2 * 2 ^ (w - 1)).
  { replace w with (w - 1 + 1) at 1 by lia. rewrite Z.pow_add_r by (unfold w; lia). lia. }
  unfold h_AddWithCarry. do 2 (erewrite hbind_ok by reflexivity). rewrite Z.eqb_refl. cbn [assert_].
  do 4 (erewrite hbind_ok by reflexivity). fold w v sum.
  destruct (h_signed_ok h x Hh Lx) as (h1 & sx & bx & E1 & F1 & G1 & (L1 & O1) & K1).
  destruct (signed_value _ W S) as (b' & Q1 & Q2). fold w v in Q1, Q2.
  assert (Fx : bx = b' /\ sx = twos w v) by (split; congruence). destruct Fx as [-> ->].
  erewrite hbind_ok by exact E1.
  destruct (O1 c Lc ltac:(congruence)) as [Lc1 Ec1].
  destruct (h_signed_ok h1 x K1 L1) as (h2 & sy & by_ & E2 & F2 & G2 & (L2 & O2) & K2).
  rewrite G1 in F2.
  assert (Y : by_ = b' /\ twos w v + sy + bv (hget h c) = signed_sum).
  { assert (Wb : wf b') by (rewrite Q2; destruct (_ <? _); [exact W|now apply wf_bits]).
    assert (Sb : bw b' = w) by (rewrite Q2; destruct (_ <? _); reflexivity).
    destruct (signed_value b' Wb ltac:(lia)) as (b2 & R1 & R2). rewrite Sb in R1, R2.
    assert (bv b' < 2 ^ (w - 1)).
    { rewrite Q2. destruct (Z.ltb_spec v (2 ^ (w - 1))); [assumption|]. cbn [bits bv].
      rewrite Z.mod_small by (unfold v, w in *; lia). lia. }
    rewrite (proj2 (Z.ltb_lt _ _)) in R2 by assumption. subst b2.
    assert (T : by_ = b' /\ sy = twos w (bv b')) by (split; congruence). destruct T as [-> ->]. split; [reflexivity|].
    pose proof (proj1 (proj2 Wb)) as V. rewrite Sb in V.
    unfold signed_sum, twos. rewrite (Z.mod_small v) by (unfold v, w; lia). rewrite (Z.mod_small (bv b')) by lia.
    rewrite (proj2 (Z.ltb_lt (bv b') _)) by assumption.
    rewrite Q2. destruct (Z.ltb_spec v (2 ^ (w - 1))); [fold v; lia|].
    cbn [bits bv]. rewrite Z.mod_small by (unfold v, w in *; lia). lia. }
  destruct Y as [-> Y].
  erewrite hbind_ok by exact E2.
  destruct (O2 c Lc1 ltac:(congruence)) as [Lc2 Ec2].
  do 2 (erewrite hbind_ok by reflexivity). rewrite Ec2, Ec1, Y, G2.
  replace (bw b') with w by (rewrite Q2; destruct (_ <? _); reflexivity).
  erewrite hbind_ok by (apply h_new_ok; cbn [hread]; apply init_int; exact W0).
  erewrite hbind_ok by reflexivity. rewrite hget_new.
  assert (K3 : heap_ok (h2 ++ [bits w sum])).
  { apply Forall_app. split; [exact K2|]. constructor; [apply wf_bits; exact W0|constructor]. }
  destruct (h_signed_ok _ _ K3 (live_new h2 (bits w sum))) as (h4 & sr & br & E4 & F4 & G4 & (L4 & O4) & K4).
  rewrite hget_new in F4. erewrite hbind_ok by exact E4.
  destruct (signed_value (bits w sum) (wf_bits w sum W0) S) as (b3 & R3 & R4). cbn [bits bw bv] in R3, R4.
  rewrite twos_mod in R3 by (unfold w; lia).
  assert (T : br = b3 /\ sr = twos w sum) by (split; congruence). destruct T as [-> ->].
  assert (A : forall s, live h s -> live h2 s).
  { intros s Ls. destruct (Nat.eq_dec s x) as [->|N1]; [exact L2|]. apply O2; [|exact N1]. now apply O1. }
  assert (B : forall s, live h2 s -> hget h4 s = hget h2 s).
  { intros s Ls. destruct (O4 s (live_app _ _ _ Ls) (live_ne_new _ _ Ls)) as [_ ->]. now apply hget_app. }
  exists h4, (List.length h2). split; [reflexivity|].
  split. { intros Q. apply A in Q. unfold live in Q. lia. }
  split; [rewrite B by auto; congruence|]. split; [rewrite G4; exact R4|].
  intros s Ls N1. rewrite B by auto. rewrite (proj2 (O2 s (proj1 (O1 s Ls N1)) N1)). now apply O1.
Qed.
(*@ex
Example C80_same_ex : exists h', h_AddWithCarry 0%nat 0%nat 1%nat [bits 8 3; bits 1 1] = (h', Ok (2%nat, 0, 0)) /\ hget h' 2%nat = bits 8 7.
Proof. eexists. split; vm_compute; reflexivity. Qed.
@*)
(*@doc ... so -1 + -1 is reported as a signed overflow. @*)
Lemma C80_same_refuted_proof : exists h x c h' r, heap_ok h /\ live h x /\ live h c /\
  hget h x = bits 32 (-1) /\ hget h c = bits 1 0 /\
  h_AddWithCarry x x c h = (h', Ok (r, 1, 1)) /\
  exists q, AddWithCarry (hget h x) (hget h x) (hget h c) = Ok (q, (hget h' r, bit1, bit0)).
Proof.
  exists [bits 32 (-1); bits 1 0], 0%nat, 1%nat. do 2 eexists.
  split; [repeat constructor; cbn; lia|]. split; [unfold live; cbn; lia|]. split; [unfold live; cbn; lia|].
  split; [reflexivity|]. split; [reflexivity|]. split; [vm_compute; reflexivity|]. eexists. vm_compute. reflexivity.
Qed.
