(** * Proofs of the statements about the command line *)
From Coq Require Import Lia.
From Verif Require Import ArgsModel BitFacts SpecBits SpecCpu SpecDisasm SpecExec SpecIsa SpecSim SpecConsole SpecProg ConsoleThms ProgThms SpecArgs.
Local Open Scope string_scope.
Local Open Scope list_scope.
Local Open Scope Z_scope.
(*@imports From Coq Require Import Lia.
From Verif Require Import ArgsModel TableModel SpecBits SpecCpu SpecDisasm SpecExec SpecIsa SpecSim SpecConsole SpecProg SpecArgs ArgsThms.
Local Open Scope string_scope.
Local Open Scope list_scope.
Local Open Scope Z_scope. @*)

(** ** Words *)
Lemma cut_some : forall l a b, cut_equals l = Some (a, b) -> l = a ++ "="%char :: b /\ ~ In "="%char a.
Proof.
  induction l as [|c l IH]; intros a b H; cbn [cut_equals] in H; [discriminate|].
  destruct (Ascii.eqb_spec c "=") as [->|N].
  - injection H as <- <-. split; [reflexivity|intros []].
  - destruct (cut_equals l) as [[a' b']|] eqn:E; cbn [option_map] in H; [|discriminate].
    injection H as <- <-. destruct (IH a' b' eq_refl) as [-> I]. split; [reflexivity|]. intros [X|X]; [now apply N|now apply I].
Qed.
Lemma cut_none : forall l, cut_equals l = None -> ~ In "="%char l.
Proof.
  induction l as [|c l IH]; intros H; [intros []|]. cbn [cut_equals] in H. destruct (Ascii.eqb_spec c "=") as [->|N]; [discriminate|].
  destruct (cut_equals l) as [[a' b']|]; [discriminate|]. intros [X|X]; [now apply N|now apply IH].
Qed.
Lemma cut_app : forall a b, ~ In "="%char a -> cut_equals (a ++ "="%char :: b) = Some (a, b).
Proof.
  induction a as [|c a IH]; intros b N; [reflexivity|]. cbn [cut_equals app]. destruct (Ascii.eqb_spec c "=") as [->|X]; [destruct N; now left|].
  rewrite IH by (intro I; apply N; now right). reflexivity.
Qed.
Fixpoint inits (l : list ascii) : list (list ascii) := match l with [] => [[]] | c :: l' => [] :: map (cons c) (inits l') end.
Lemma prefix_inits : forall a b, is_prefix a b = true -> In a (inits b).
Proof.
  induction a as [|x a IH]; intros b H; [destruct b; cbn; now left|]. destruct b as [|y b]; [discriminate|]. cbn [is_prefix] in H.
  apply andb_prop in H. destruct H as [H1 H2]. apply Ascii.eqb_eq in H1. subst y. cbn [inits]. right. apply in_map, IH, H2.
Qed.
Lemma known_some : forall l a, known l = Some a -> In (of_chars l, a) option_strings.
Proof.
  intros l a H. unfold known in H. destruct (find _ _) as [[o b]|] eqn:F; [|discriminate]. injection H as ->. apply find_some in F. destruct F as [I E].
  cbn [fst] in E. apply String.eqb_eq in E. now subst o.
Qed.
Lemma known_short : forall c x l, c <> "-"%char -> known ("-"%char :: c :: x :: l) = None.
Proof.
  intros c x l N. destruct (known _) as [a|] eqn:K; [|reflexivity]. apply known_some in K. cbn [In option_strings] in K.
  repeat (destruct K as [K|K]; [injection K; intros; subst; try discriminate; try (now destruct N)|]). destruct K.
Qed.

Definition otherwise (w : string) : option kind :=
  if (is_negative (chars w) || existsb (Ascii.eqb " ") (chars w))%bool then Some Arg else Some (Opt None).
Lemma parse_nodash : forall c r, c <> "-"%char -> parse_optional (String c r) = Some Arg.
Proof.
  intros c r N. unfold parse_optional. cbn [chars]. destruct c as [[] [] [] [] [] [] [] []]; try reflexivity. now destruct N.
Qed.
Lemma tuples_short : forall c x r, c <> "-"%char -> option_tuples ("-"%char :: c :: x :: r) =
  if Ascii.eqb c "h" then [(AHelp, "-h", Some (x :: r))] else if Ascii.eqb c "d" then [(ADebug, "-d", Some (x :: r))] else [].
Proof.
  intros c x r N. destruct (Ascii.eqb_spec c "h") as [->|H]; [reflexivity|]. destruct (Ascii.eqb_spec c "d") as [->|D]; [reflexivity|].
  destruct c as [[] [] [] [] [] [] [] []]; try reflexivity; try (now destruct N); try (now destruct H); now destruct D.
Qed.
(** A word with one dash. *)
Lemma parse_short : forall c x r, c <> "-"%char -> parse_optional (String "-" (String c (String x r))) =
  if Ascii.eqb c "h" then Some (Opt (Some (AHelp, "-h", Some (if Ascii.eqb x "=" then chars r else x :: chars r))))
  else if Ascii.eqb c "d" then Some (Opt (Some (ADebug, "-d", Some (if Ascii.eqb x "=" then chars r else x :: chars r))))
  else otherwise (String "-" (String c (String x r))).
Proof.
  intros c x r N. set (w := String "-" (String c (String x r))). unfold parse_optional. change (chars w) with ("-"%char :: c :: x :: chars r).
  cbv beta iota. rewrite known_short, tuples_short by exact N.
  assert (X : match cut_equals ("-"%char :: c :: x :: chars r) with Some (o, e) => option_map (fun a => (a, of_chars o, Some e)) (known o) | None => None end =
              if Ascii.eqb x "=" then option_map (fun a => (a, of_chars ["-"%char; c], Some (chars r))) (known ["-"%char; c])
              else if Ascii.eqb c "=" then option_map (fun a => (a, "-", Some (x :: chars r))) (known ["-"%char]) else None).
  { cbn [cut_equals]. change (Ascii.eqb "-" "=") with false. cbv iota. destruct (Ascii.eqb_spec c "=") as [->|C].
    - destruct (Ascii.eqb_spec x "=") as [->|Y]; reflexivity.
    - destruct (Ascii.eqb_spec x "=") as [->|Y]; [reflexivity|]. destruct (cut_equals (chars r)) as [[a b]|] eqn:E; cbn [option_map]; [|reflexivity].
      rewrite known_short by exact N. reflexivity. }
  rewrite X. clear X. destruct (Ascii.eqb_spec c "h") as [->|H].
  { change (Ascii.eqb "h" "=") with false. cbv iota. destruct (Ascii.eqb x "="); reflexivity. }
  destruct (Ascii.eqb_spec c "d") as [->|D].
  { change (Ascii.eqb "d" "=") with false. cbv iota. destruct (Ascii.eqb x "="); reflexivity. }
  assert (K : known ["-"%char; c] = None).
  { destruct (known _) as [a|] eqn:K; [|reflexivity]. apply known_some in K. cbn [In option_strings of_chars] in K.
    repeat (destruct K as [K|K]; [injection K; intros; subst; try discriminate; try (now destruct H); try (now destruct D)|]). destruct K. }
  rewrite K. change (known ["-"%char]) with (@None action). cbn [option_map]. unfold otherwise. change (chars w) with ("-"%char :: c :: x :: chars r).
  destruct (Ascii.eqb x "="), (Ascii.eqb c "="); reflexivity.
Qed.
Lemma parse_two : forall c, c <> "-"%char -> parse_optional (String "-" (String c "")) =
  if Ascii.eqb c "h" then Some (Opt (Some (AHelp, "-h", None))) else if Ascii.eqb c "d" then Some (Opt (Some (ADebug, "-d", None)))
  else otherwise (String "-" (String c "")).
Proof.
  intros c N. destruct (Ascii.eqb_spec c "h") as [->|H]; [reflexivity|]. destruct (Ascii.eqb_spec c "d") as [->|D]; [reflexivity|].
  destruct c as [[] [] [] [] [] [] [] []]; try reflexivity; try (now destruct N); try (now destruct H); now destruct D.
Qed.

(** A word with two dashes. *)
Definition long_options : list (list ascii * (action * string)) := [(chars "help", (AHelp, "--help")); (chars "version", (AVersion, "--version")); (chars "debug", (ADebug, "--debug"))].
Definition long_found (p : list ascii) : list (action * string) := map snd (filter (fun o => is_prefix p (fst o)) long_options).
Definition before_equals (l : list ascii) : list ascii * option (list ascii) := match cut_equals l with Some (a, b) => (a, Some b) | None => (l, None) end.
Lemma before_dashes : forall r, before_equals ("-"%char :: "-"%char :: r) = let '(p, e) := before_equals r in ("-"%char :: "-"%char :: p, e).
Proof. intros r. unfold before_equals. cbn [cut_equals]. change (Ascii.eqb "-" "=") with false. cbv iota. destruct (cut_equals r) as [[a b]|]; reflexivity. Qed.
Lemma tuples_long : forall r, option_tuples ("-"%char :: "-"%char :: r) =
  let '(p, e) := before_equals r in map (fun o => (fst o, snd o, e)) (long_found p).
Proof.
  intros r. unfold option_tuples. fold (before_equals ("-"%char :: "-"%char :: r)). rewrite before_dashes. destruct (before_equals r) as [p e].
  unfold long_found, long_options, option_strings. cbn [filter fst chars]. change (is_prefix ("-"%char :: "-"%char :: p) ["-"%char; "h"%char]) with false.
  change (is_prefix ("-"%char :: "-"%char :: p) ["-"%char; "d"%char]) with false. cbn [is_prefix]. change (Ascii.eqb "-" "-") with true. cbn [andb].
  destruct (is_prefix p ["h"; "e"; "l"; "p"]%char), (is_prefix p ["v"; "e"; "r"; "s"; "i"; "o"; "n"]%char), (is_prefix p ["d"; "e"; "b"; "u"; "g"]%char); reflexivity.
Qed.
Lemma known_long : forall p a, known ("-"%char :: "-"%char :: p) = Some a ->
  exists o, long_found p = [(a, o)] /\ of_chars ("-"%char :: "-"%char :: p) = o /\ ~ In "="%char p.
Proof.
  intros p a K. apply known_some in K. cbn [In option_strings] in K.
  repeat (destruct K as [K|K];
    [pose proof (f_equal snd K) as A; apply (f_equal fst) in K; cbn [fst snd] in A, K; apply (f_equal chars) in K; rewrite chars_of_chars in K; cbn [chars] in K;
     first [discriminate K|injection K as <-; subst a; eexists; split; [reflexivity|split; [reflexivity|vm_compute; intuition discriminate]]]|]).
  destruct K.
Qed.
Lemma parse_long : forall x r, let w := String "-" (String "-" (String x r)) in
  let '(p, e) := before_equals (x :: chars r) in
  parse_optional w = match long_found p with
                     | [] => otherwise w
                     | [(a, o)] => Some (Opt (Some (a, o, e)))
                     | _ => None
                     end.
Proof.
  intros x r w. set (l := x :: chars r). assert (C : chars w = "-"%char :: "-"%char :: l) by reflexivity.
  destruct (before_equals l) as [p e] eqn:B. unfold parse_optional. rewrite C. cbv beta iota. rewrite tuples_long, B.
  pose proof (before_dashes l) as D. rewrite B in D.
  destruct (known ("-"%char :: "-"%char :: l)) as [a|] eqn:K.
  - apply known_long in K. destruct K as (o & L & O & I). assert (N : cut_equals l = None).
    { destruct (cut_equals l) as [[u v]|] eqn:E; [|reflexivity]. apply cut_some in E. destruct E as [E _]. destruct I. rewrite E. apply in_or_app. right. now left. }
    unfold before_equals in B. rewrite N in B. injection B as <- <-. rewrite L. rewrite <- O. rewrite <- C. now rewrite of_chars_chars.
  - unfold l at 1. cbv beta iota. fold l. unfold before_equals in D.
    destruct (cut_equals ("-"%char :: "-"%char :: l)) as [[u v]|] eqn:E.
    + injection D as -> ->. destruct (known ("-"%char :: "-"%char :: p)) as [a|] eqn:K'.
      * apply known_long in K'. destruct K' as (o & L & O & I). rewrite L. cbn [option_map]. now rewrite O.
      * cbn [option_map]. unfold otherwise. rewrite C. destruct (long_found p) as [|[a o] [|]]; reflexivity.
    + unfold otherwise. rewrite C. destruct (long_found p) as [|[a o] [|]]; reflexivity.
Qed.

(** Negative numbers. *)
Lemma is_digit_spec : forall c, is_digit c = true <-> In c (chars "0123456789").
Proof.
  intros c. split.
  - destruct c as [[] [] [] [] [] [] [] []]; vm_compute; intro H; try discriminate H; tauto.
  - cbn [In chars]. intros H. repeat (destruct H as [<-|H]; [reflexivity|]). destruct H.
Qed.
Lemma digits_split : forall l, exists a, some_digits a /\ l = a ++ drop_digits l.
Proof.
  induction l as [|c l (a & A & E)]; [exists []; split; [intros ? []|reflexivity]|]. cbn [drop_digits]. destruct (is_digit c) eqn:D.
  - exists (c :: a). split; [|cbn [app]; now rewrite <- E]. intros x [<-|I]; [now apply is_digit_spec|now apply A].
  - exists []. split; [intros ? []|reflexivity].
Qed.
Lemma drop_app : forall a l, some_digits a -> drop_digits (a ++ l) = drop_digits l.
Proof.
  induction a as [|c a IH]; intros l D; [reflexivity|]. cbn [app drop_digits].
  rewrite (proj2 (is_digit_spec c)) by (apply D; now left). apply IH. intros x I. apply D. now right.
Qed.
Lemma drop_end : forall e, e = [] \/ e = ["010"%char] -> drop_digits e = e.
Proof. intros e [->| ->]; reflexivity. Qed.
Lemma at_end_spec : forall l, at_end l = true -> l = [] \/ l = ["010"%char].
Proof. intros [|c [|d l]] H; [now left|right|discriminate]. cbn [at_end] in H. apply Ascii.eqb_eq in H. now subst. Qed.
Lemma to_end_spec : forall l, digits_to_end l = true <-> exists a e, some_digits a /\ a <> [] /\ (e = [] \/ e = ["010"%char]) /\ l = a ++ e.
Proof.
  intros l. split.
  - intros H. destruct (digits_split l) as (a & A & E). destruct l as [|c r]; [discriminate|]. unfold digits_to_end in H. apply andb_prop in H.
    destruct H as [D H]. exists a, (drop_digits (c :: r)). split; [exact A|]. split; [|split; [apply at_end_spec, H|exact E]].
    intros ->. cbn [drop_digits app] in E. rewrite D in E. destruct (digits_split r) as (b & _ & F). apply (f_equal (@List.length ascii)) in E.
    apply (f_equal (@List.length ascii)) in F. rewrite app_length in F. cbn [List.length] in E. lia.
  - intros (a & e & A & N & X & ->). destruct a as [|c a]; [now destruct N|]. unfold digits_to_end. cbn [app].
    rewrite (proj2 (is_digit_spec c)) by (apply A; now left). change (c :: a ++ e) with ((c :: a) ++ e). rewrite drop_app, drop_end by assumption.
    destruct X as [->| ->]; reflexivity.
Qed.
Lemma is_negative_spec : forall w, is_negative (chars w) = true <-> looks_negative w.
Proof.
  intros w. unfold looks_negative. split.
  - intros H. destruct (chars w) as [|c r]; [discriminate|]. destruct (Ascii.eqb_spec c "-") as [->|N];
      [|exfalso; destruct c as [[] [] [] [] [] [] [] []]; try discriminate H; now apply N].
    unfold is_negative in H. apply orb_prop in H. destruct H as [H|H].
    + apply to_end_spec in H. destruct H as (a & e & A & N & X & E). exists a, [], e. split; [exact A|]. split; [intros ? []|]. split; [exact X|].
      left. split; [now rewrite E|exact N].
    + destruct (digits_split r) as (a & A & E). destruct (drop_digits r) as [|d r']; [discriminate|].
      destruct (Ascii.eqb_spec d ".") as [->|N]; [|exfalso; destruct d as [[] [] [] [] [] [] [] []]; try discriminate H; now apply N].
      apply to_end_spec in H. destruct H as (b & e & B & N & X & F). exists a, b, e. split; [exact A|]. split; [exact B|]. split; [exact X|].
      right. split; [now rewrite E, F|exact N].
  - intros (a & b & e & A & B & X & [[-> N]|[-> N]]); unfold is_negative; apply orb_true_intro.
    + left. apply to_end_spec. exists a, e. auto.
    + right. rewrite drop_app by exact A. cbn [drop_digits]. change (is_digit ".") with false. cbv iota. apply to_end_spec. exists b, e. auto.
Qed.
Lemma otherwise_spec : forall w,
  otherwise w = Some Arg /\ (looks_negative w \/ In " "%char (chars w)) \/ otherwise w = Some (Opt None) /\ ~ (looks_negative w \/ In " "%char (chars w)).
Proof.
  intros w. unfold otherwise. assert (S : existsb (Ascii.eqb " ") (chars w) = true <-> In " "%char (chars w)).
  { rewrite existsb_exists. split; [intros (x & I & E); apply Ascii.eqb_eq in E; now subst|intros I; exists " "%char; now split]. }
  pose proof (is_negative_spec w) as G. destruct (is_negative (chars w)), (existsb (Ascii.eqb " ") (chars w)); cbn [orb]; [left|left|left|right]; (split; [reflexivity|]).
  - left. now apply G.
  - left. now apply G.
  - right. now apply S.
  - intros [X|X]; [apply G in X|apply S in X]; discriminate.
Qed.

(** ** What a word is *)
Lemma begins_cons : forall p c w, begins (String c p) w <-> exists r, w = String c r /\ begins p r.
Proof.
  intros p c w. unfold begins. split.
  - intros [r ->]. cbn [append]. exists (p ++ r)%string. split; [reflexivity|]. now exists r.
  - intros (r & -> & s & ->). now exists s.
Qed.
Lemma begins_nil : forall w, begins "" w.
Proof. intros w. now exists w. Qed.
Lemma long_in : forall p a o, In (a, o) (long_found p) -> exists l, In (l, (a, o)) long_options /\ In p (inits l).
Proof.
  intros p a o H. unfold long_found in H. apply in_map_iff in H. destruct H as [[l x] [E I]]. cbn [snd] in E. subst x. apply filter_In in I.
  destruct I as [I P]. exists l. split; [exact I|]. apply prefix_inits, P.
Qed.
Definition spelled_by (names : list string) (w : string) (e : option (list ascii)) : Prop :=
  match e with
  | None => In w names
  | Some e => exists a, In a names /\ w = (a ++ "=" ++ of_chars e)%string
  end.
Lemma long_word : forall x r p e, before_equals (x :: chars r) = (p, e) ->
  (e = None /\ String x r = of_chars p) \/ (exists l, e = Some l /\ String x r = (of_chars p ++ "=" ++ of_chars l)%string).
Proof.
  intros x r p e B. unfold before_equals in B. destruct (cut_equals (x :: chars r)) as [[u v]|] eqn:E; injection B as <- <-.
  - right. exists v. split; [reflexivity|]. apply cut_some in E. destruct E as [E _]. apply string_ext. rewrite chars_app. cbn [chars append]. rewrite !chars_of_chars. exact E.
  - left. split; [reflexivity|]. cbn [of_chars]. now rewrite of_chars_chars.
Qed.
Inductive word_kind (w : string) : Prop :=
| wk_file : parse_optional w = Some Arg -> file_word w -> word_kind w
| wk_level : forall o, parse_optional w = Some (Opt (Some (ADebug, o, None))) -> In w names_level -> word_kind w
| wk_joined : forall o e, parse_optional w = Some (Opt (Some (ADebug, o, Some (chars e)))) -> joined e w -> word_kind w
| wk_help : forall o, parse_optional w = Some (Opt (Some (AHelp, o, None))) -> In w names_help -> word_kind w
| wk_helps : forall o e, parse_optional w = Some (Opt (Some (AHelp, o, Some e))) ->
    (o = "-h" /\ (w = ("-h" ++ of_chars e)%string /\ e <> [] /\ ~ begins "=" (of_chars e) \/ w = ("-h=" ++ of_chars e)%string)) \/ (o = "--help" /\ spelled_by names_help w (Some e)) -> word_kind w
| wk_version : forall o e, parse_optional w = Some (Opt (Some (AVersion, o, e))) -> spelled_by names_version w e -> word_kind w
| wk_ambiguous : parse_optional w = None -> begins "--=" w -> word_kind w
| wk_unknown : parse_optional w = Some (Opt None) -> unknown_word w -> word_kind w.
Lemma word_kinds : forall w, w <> "--" -> word_kind w.
Proof.
  intros w W. destruct w as [|c w]; [apply wk_file; [reflexivity|left; intros [r X]; discriminate]|].
  destruct (Ascii.eqb_spec c "-") as [->|N].
  2:{ apply wk_file; [apply parse_nodash, N|]. left. intros [r X]. injection X as X _. now apply N. }
  destruct w as [|c w]; [apply wk_file; [reflexivity|right; now left]|].
  destruct (Ascii.eqb_spec c "-") as [->|N].
  - destruct w as [|x r]; [now destruct W|]. pose proof (parse_long x r) as P. cbv zeta in P. destruct (before_equals (x :: chars r)) as [p e] eqn:B.
    pose proof (long_word x r p e B) as WE. assert (LI := long_in p).
    destruct (long_found p) as [|[a o] [|q l]] eqn:L.
    + assert (NO : not_option (String "-" (String "-" (String x r)))).
      { split; [intros [z X]; discriminate X|]. split; [intros [z X]; discriminate X|]. split; [discriminate|]. split.
      { intros [z X]. injection X as -> ->. unfold before_equals in B. cbn [cut_equals] in B. change (Ascii.eqb "=" "=") with true in B. cbv iota in B. injection B as <- <-. discriminate L. }
      intros a I. assert (Q : forall a', a = String "-" (String "-" a') -> long_found (chars a') <> []).
      { intros a' ->. cbn [In names_level names_help names_version app] in I. repeat (destruct I as [I|I]; [first [discriminate I|injection I as <-; discriminate]|]). destruct I. }
      assert (NE : ~ In "="%char (chars a)).
      { cbn [In names_level names_help names_version app] in I. repeat (destruct I as [<-|I]; [vm_compute; intuition discriminate|]). destruct I. }
      split.
      -- intros <-. apply (Q (String x r) eq_refl). cbn [chars] in NE |- *. unfold before_equals in B. destruct (cut_equals (x :: chars r)) as [[u v]|] eqn:E.
         { apply cut_some in E. destruct E as [E _]. exfalso. apply NE. rewrite E. right. right. apply in_or_app. right. now left. }
         injection B as <- <-. exact L.
      -- intros [z X]. assert (exists a', a = String "-" (String "-" a')) as [a' ->].
         { cbn [In names_level names_help names_version app] in I. repeat (destruct I as [<-|I]; [first [discriminate X|eexists; reflexivity]|]). destruct I. }
         cbn [append] in X. injection X as X. apply (Q a' eq_refl). apply (f_equal chars) in X. cbn [chars] in X. rewrite !chars_app in X. cbn [chars app] in X.
         unfold before_equals in B. rewrite X in B. rewrite <- app_assoc in B. cbn [app] in B. rewrite cut_app in B by (intro; apply NE; right; now right).
         injection B as <- <-. exact L. }
      assert (BD : begins "-" (String "-" (String "-" (String x r)))) by (apply begins_cons; eexists; split; [reflexivity|apply begins_nil]).
      destruct (otherwise_spec (String "-" (String "-" (String x r)))) as [[O G]|[O G]]; rewrite O in P.
      * apply wk_file; [exact P|]. right. right. split; [exact BD|]. split; [discriminate|]. now split.
      * apply wk_unknown; [exact P|]. split; [exact BD|]. split; [discriminate|]. now split.
    + destruct (LI a o (or_introl eq_refl)) as (lo & I & PI).
      assert (NN : p <> []) by (intros ->; discriminate L).
      cbn [In long_options] in I. destruct I as [I|[I|[I|[]]]]; injection I as <- <- <-.
      * assert (SB : spelled_by names_help (String "-" (String "-" (String x r))) e).
        { assert (NI : In (of_chars ("-" :: "-" :: p)%char) names_help).
          { vm_compute in PI. repeat (destruct PI as [<-|PI]; [first [now destruct NN|vm_compute; tauto]|]). destruct PI. }
          destruct WE as [[-> ->]|(y & -> & ->)]; [exact NI|]. exists (of_chars ("-" :: "-" :: p)%char). split; [exact NI|reflexivity]. }
        destruct e as [e|]; [|eapply wk_help; [exact P|exact SB]]. eapply wk_helps; [exact P|]. right. split; [reflexivity|exact SB].
      * eapply wk_version; [exact P|].
        assert (NI : In (of_chars ("-" :: "-" :: p)%char) names_version).
        { vm_compute in PI. repeat (destruct PI as [<-|PI]; [first [now destruct NN|vm_compute; tauto]|]). destruct PI. }
        destruct WE as [[-> ->]|(y & -> & ->)]; [exact NI|]. exists (of_chars ("-" :: "-" :: p)%char). split; [exact NI|reflexivity].
      * assert (NI : In (of_chars ("-" :: "-" :: p)%char) names_level).
        { vm_compute in PI. repeat (destruct PI as [<-|PI]; [first [now destruct NN|vm_compute; tauto]|]). destruct PI. }
        destruct WE as [[-> E]|(y & -> & E)].
        -- rewrite E in *. eapply wk_level; [exact P|exact NI].
        -- rewrite E in *. eapply (wk_joined _ _ (of_chars y)); [rewrite chars_of_chars; exact P|]. right. exists (of_chars ("-" :: "-" :: p)%char). split; [exact NI|reflexivity].
    + apply wk_ambiguous; [destruct q; exact P|]. destruct p as [|k p].
      * destruct WE as [[_ E]|(y & -> & ->)]; [discriminate E|]. cbn [of_chars append]. do 3 (apply begins_cons; eexists; split; [reflexivity|]). apply begins_nil.
      * exfalso. clear - L. unfold long_found, long_options in L. cbn [filter fst is_prefix chars] in L.
        destruct (Ascii.eqb k "h") eqn:E1, (Ascii.eqb k "v") eqn:E2, (Ascii.eqb k "d") eqn:E3;
          repeat match goal with H : Ascii.eqb _ _ = true |- _ => apply Ascii.eqb_eq in H end; try congruence; cbn [andb] in L;
          repeat match goal with H : context [if ?b then _ else _] |- _ => destruct b end; discriminate L.
  - destruct w as [|x r].
    + pose proof (parse_two c N) as P. destruct (Ascii.eqb_spec c "h") as [->|H]; [eapply wk_help; [exact P|vm_compute; tauto]|].
      destruct (Ascii.eqb_spec c "d") as [->|D]; [eapply wk_level; [exact P|vm_compute; tauto]|].
      assert (NO : not_option (String "-" (String c ""))).
      { split; [intros [z X]; injection X as -> _; now apply D|]. split; [intros [z X]; injection X as -> _; now apply H|].
      split; [intros X; injection X as ->; now apply N|]. split; [intros [z X]; injection X as -> _; now apply N|].
      intros a I. cbn [In names_level names_help names_version app] in I.
      repeat (destruct I as [<-|I]; [split; [intros X|intros [z X]]; injection X; intros; subst; first [discriminate|now destruct N|now destruct H|now destruct D]|]). destruct I. }
      assert (BD : begins "-" (String "-" (String c ""))) by (apply begins_cons; eexists; split; [reflexivity|apply begins_nil]).
      destruct (otherwise_spec (String "-" (String c ""))) as [[O G]|[O G]]; rewrite O in P.
      * apply wk_file; [exact P|]. right. right. split; [exact BD|]. split; [discriminate|]. now split.
      * apply wk_unknown; [exact P|]. split; [exact BD|]. split; [discriminate|]. now split.
    + pose proof (parse_short c x r N) as P. destruct (Ascii.eqb_spec c "h") as [->|H].
      { eapply wk_helps; [exact P|]. left. split; [reflexivity|]. destruct (Ascii.eqb_spec x "=") as [->|Y]; [right; now rewrite of_chars_chars|].
        left. cbn [of_chars]. rewrite of_chars_chars. split; [reflexivity|]. split; [discriminate|]. intros [z X]. injection X as X _. now apply Y. }
      destruct (Ascii.eqb_spec c "d") as [->|D].
      { destruct (Ascii.eqb_spec x "=") as [->|Y].
        - eapply (wk_joined _ _ r); [exact P|]. right. exists "-d". split; [now left|reflexivity].
        - eapply (wk_joined _ _ (String x r)); [exact P|]. left. split; [reflexivity|]. split; [discriminate|]. intros [z X]. injection X as X _. now apply Y. }
      assert (NO : not_option (String "-" (String c (String x r)))).
      { split; [intros [z X]; injection X as -> _; now apply D|]. split; [intros [z X]; injection X as -> _; now apply H|].
      split; [discriminate|]. split; [intros [z X]; injection X as -> _; now apply N|].
      intros a I. cbn [In names_level names_help names_version app] in I.
      repeat (destruct I as [<-|I]; [split; [intros X|intros [z X]]; injection X; intros; subst; first [discriminate|now destruct N|now destruct H|now destruct D]|]). destruct I. }
      assert (BD : begins "-" (String "-" (String c (String x r)))) by (apply begins_cons; eexists; split; [reflexivity|apply begins_nil]).
      destruct (otherwise_spec (String "-" (String c (String x r)))) as [[O G]|[O G]]; rewrite O in P.
      * apply wk_file; [exact P|]. right. right. split; [exact BD|]. split; [discriminate|]. now split.
      * apply wk_unknown; [exact P|]. split; [exact BD|]. split; [discriminate|]. now split.
Qed.
Lemma joined_parse : forall e w, joined e w -> exists o, parse_optional w = Some (Opt (Some (ADebug, o, Some (chars e)))).
Proof.
  intros e w [(-> & N & B)|(a & I & ->)].
  - destruct e as [|x r]; [now destruct N|]. exists "-d". change ("-d" ++ String x r)%string with (String "-" (String "d" (String x r))).
    rewrite parse_short by discriminate. destruct (Ascii.eqb_spec x "=") as [->|Y]; [|reflexivity]. destruct B. now exists r.
  - cbn [In names_level] in I. destruct I as [<-|I].
    + exists "-d". change ("-d" ++ "=" ++ e)%string with (String "-" (String "d" (String "=" e))). rewrite parse_short by discriminate. reflexivity.
    + exists "--debug". repeat (destruct I as [<-|I]; [match goal with |- parse_optional (String _ (String _ (String ?x ?r)) ++ ?s)%string = _ =>
        exact (parse_long x (r ++ s)) end|]). destruct I.
Qed.
Lemma sapp_assoc : forall a b c : string, (a ++ b ++ c)%string = ((a ++ b) ++ c)%string.
Proof. induction a as [|x a IH]; intros b c; [reflexivity|]. cbn [append]. f_equal. apply IH. Qed.
Lemma joined_dash : forall e w, joined e w -> begins "-" w /\ w <> "-" /\ w <> "--" /\ (begins "-d" w \/ exists a, In a names_level /\ begins (a ++ "=") w).
Proof.
  intros e w [(-> & N & B)|(a & I & ->)].
  - split; [eexists; reflexivity|]. split; [discriminate|]. split; [discriminate|]. left. eexists. reflexivity.
  - split; [|split; [|split; [|right; exists a; split; [exact I|]; exists e; apply sapp_assoc]]];
      cbn [In names_level] in I; repeat (destruct I as [<-|I]; [first [discriminate|eexists; reflexivity]|]); destruct I.
Qed.
Lemma names_dash : forall w, In w (names_level ++ names_help ++ names_version) -> begins "-" w /\ w <> "-" /\ w <> "--".
Proof.
  intros w I. split; [|split]; cbn [In names_level names_help names_version app] in I; repeat (destruct I as [<-|I]; [first [discriminate|eexists; reflexivity]|]); destruct I.
Qed.
Lemma begins_app : forall a b w, begins (a ++ b) w -> begins a w.
Proof. intros a b w [r ->]. exists (b ++ r)%string. symmetry. apply sapp_assoc. Qed.
Lemma spelled_not_file : forall names w e, incl names (names_level ++ names_help ++ names_version) -> spelled_by names w e -> ~ file_word w.
Proof.
  intros names w e I S F. destruct e as [e|].
  - destruct S as (a & A & ->). apply I in A. destruct (names_dash a A) as (B & N1 & N2). destruct F as [F|[F|F]].
    + apply F. destruct B as [r ->]. exists (r ++ "=" ++ of_chars e)%string. reflexivity.
    + destruct B as [r ->]. destruct r as [|c r]; [apply N1; reflexivity|discriminate F].
    + destruct F as (_ & _ & _ & _ & _ & _ & _ & F). apply (F a A). exists (of_chars e). apply sapp_assoc.
  - apply I in S. destruct (names_dash w S) as (B & N1 & N2). destruct F as [F|[F|F]]; [now apply F|now apply N1|].
    destruct F as (_ & _ & _ & _ & _ & _ & _ & F). destruct (F w S) as [F' _]; now apply F'.
Qed.
Lemma file_parse : forall w, file_word w -> w <> "--" -> parse_optional w = Some Arg.
Proof.
  intros w F N. destruct (word_kinds w N) as [P _|o P I|o e P J|o P I|o e P D|o e P D|P B|P U]; [exact P| | | | | | |]; exfalso.
  - apply (spelled_not_file names_level w None); [intros x X; apply in_or_app; now left|exact I|exact F].
  - destruct (joined_dash e w J) as (B & N1 & N2 & D). destruct F as [F|[F|F]]; [now apply F|now apply N1|].
    destruct F as (_ & _ & _ & F1 & _ & _ & _ & F2). destruct D as [D|(a & A & D)]; [now apply F1|]. refine (proj2 (F2 a _) D). apply in_or_app. now left.
  - apply (spelled_not_file names_help w None); [intros x X; apply in_or_app; right; apply in_or_app; now left|exact I|exact F].
  - destruct D as [(_ & D)|(_ & S)].
    + assert (B : begins "-h" w) by (destruct D as [(-> & _)| ->]; eexists; reflexivity). destruct F as [F|[F|F]]; [apply F; exact (begins_app "-" "h" w B)|subst w; destruct B; discriminate|]. destruct F as (F0 & F1 & F2 & F3 & F4 & F5 & F6 & _). tauto.
    + apply (spelled_not_file names_help w (Some e)); [intros x X; apply in_or_app; right; apply in_or_app; now left|exact S|exact F].
  - apply (spelled_not_file names_version w e); [intros x X; apply in_or_app; right; apply in_or_app; now right|exact D|exact F].
  - destruct F as [F|[F|F]]; [apply F; exact (begins_app "-" "-=" w B)|subst w; destruct B; discriminate|]. destruct F as (F0 & F1 & F2 & F3 & F4 & F5 & F6 & _). tauto.
  - destruct U as (B & W & G & _). destruct F as [F|[F|F]]; [now apply F|now apply W|]. destruct F as (F0 & F1 & F2 & F3 & F4 & F5 & F6 & _). tauto.
Qed.
Lemma file_dashes : ~ file_word "--".
Proof. intros [F|[F|F]]; [apply F; now exists "-"|discriminate|]. destruct F as (F0 & F1 & F2 & F3 & F4 & F5 & F6 & _). now apply F5. Qed.

(** ** The loop *)
Lemma classify_nil : forall argv, classify argv = Some [] -> argv = [].
Proof. intros [|w argv] H; [reflexivity|]. cbn [classify] in H. destruct (String.eqb w "--"); [discriminate|]. destruct (parse_optional w), (classify argv); discriminate. Qed.
Lemma classify_cons : forall argv w k l, classify argv = Some ((w, k) :: l) ->
  exists rest, argv = w :: rest /\
    (w = "--" /\ k = Dashes /\ l = map (fun x => (x, Arg)) rest \/ w <> "--" /\ parse_optional w = Some k /\ classify rest = Some l).
Proof.
  intros [|v argv] w k l H; [discriminate|]. cbn [classify] in H. destruct (String.eqb_spec v "--") as [->|N].
  - injection H as <- <- <-. exists argv. split; [reflexivity|]. left. auto.
  - destruct (parse_optional v) as [k'|] eqn:P; [|discriminate]. destruct (classify argv) as [l'|] eqn:C; [|discriminate]. injection H as <- <- <-.
    exists argv. split; [reflexivity|]. right. auto.
Qed.
Lemma no_options : forall argv, has_option (map (fun x : string => (x, Arg)) argv) = false.
Proof. induction argv as [|w l IH]; [reflexivity|exact IH]. Qed.
Lemma store_ok : forall w f f', store_level w f = inl f' ->
  exists l, f' = mkfound l (f_file f) (f_done f) (f_extra f) /\ (w = "--" /\ l = None \/ In w the_levels /\ l = Some w).
Proof.
  intros w f f' H. unfold store_level in H. destruct (String.eqb_spec w "--") as [->|N].
  - injection H as <-. exists None. split; [reflexivity|]. now left.
  - destruct (existsb (String.eqb w) LEVELS) eqn:E; [|discriminate]. injection H as <-. exists (Some w). split; [reflexivity|]. right. split; [|reflexivity].
    apply existsb_exists in E. destruct E as (x & I & E). apply String.eqb_eq in E. now subst.
Qed.
Lemma store_level_ok : forall w f, In w the_levels -> store_level w f = inl (mkfound (Some w) (f_file f) (f_done f) (f_extra f)).
Proof. intros w f I. cbn [In the_levels] in I. repeat (destruct I as [<-|I]; [reflexivity|]). destruct I. Qed.
Lemma level_file_word : forall w, In w the_levels -> file_word w /\ w <> "--".
Proof.
  intros w I. split; [left; intros [r ->]|intros ->]; cbn [In the_levels append] in I; repeat (destruct I as [I|I]; [discriminate I|]); destruct I.
Qed.
Lemma consume_done : forall fs l f, has_option l = false -> f_done f = true -> consume fs l f =
  if (f_extra f || negb (Nat.eqb (List.length l) 0))%bool then PUsage else PArgs (f_level f) (f_file f).
Proof. intros fs [|x l] f H D; unfold consume; cbv zeta; fold consume; rewrite H, D; reflexivity. Qed.
Lemma extra_left : forall fs n l f lv fl, (List.length l <= n)%nat -> f_extra f = true -> consume fs l f <> PArgs lv fl.
Proof.
  intros fs. induction n as [|n IH]; intros l f lv fl L X.
  - destruct l; [|cbn in L; lia]. unfold consume. cbn [has_option existsb first_word]. destruct (f_done f); cbn [f_extra]; rewrite X; discriminate.
  - destruct (has_option l) eqn:H.
    2:{ destruct (f_done f) eqn:D; [rewrite consume_done by assumption; rewrite X; discriminate|].
        assert (C : consume fs l f = match first_word l with (None, rest) => PUsage | (Some w, rest) => match open_file fs w with inl d => PUsage | inr p => p end end).
        { destruct l as [|x l]; unfold consume; cbv zeta; fold consume; rewrite H, D; destruct (first_word _) as [[w|] rest]; cbn [f_extra]; rewrite ?X; try reflexivity.
          all: destruct (open_file fs w); cbn [f_extra]; rewrite ?X; reflexivity. }
        rewrite C. destruct (first_word l) as [[w|] rest]; [|discriminate]. unfold open_file. destruct (String.eqb w "-"); [discriminate|]. destruct (fs w); discriminate. }
    destruct l as [|[w k] l]; [discriminate|]. cbn [List.length] in L. cbn [consume]. rewrite H. destruct k as [|[[[[] o] [e|]]|]|]; try discriminate.
    + destruct (f_done f); [apply IH; [lia|reflexivity]|]. unfold open_file. destruct (String.eqb w "-"); [apply IH; [lia|exact X]|].
      destruct (fs w); [apply IH; [lia|exact X]|discriminate].
    + destruct (String.eqb o "-h"); [|discriminate]. generalize (arg_follows l). intros b. clear. induction e as [|c e IH]; [discriminate|].
      cbn [more_flags]. destruct (known _) as [[]|]; [| | |discriminate].
      all: destruct e; try discriminate; try exact IH. destruct b; discriminate.
    + destruct (store_level (of_chars e) f) as [f'|p] eqn:S.
      * apply store_ok in S. destruct S as (v & -> & _). apply IH; [lia|exact X].
      * unfold store_level in S. destruct (String.eqb _ _); [discriminate|]. destruct (existsb _ _); [discriminate|]. injection S as <-. discriminate.
    + destruct l as [|[v k] l]; [discriminate|]. destruct k; try discriminate. destruct (store_level v f) as [f'|p] eqn:S.
      * apply store_ok in S. destruct S as (u & -> & _). apply IH; [cbn [List.length] in L; lia|exact X].
      * unfold store_level in S. destruct (String.eqb _ _); [discriminate|]. destruct (existsb _ _); [discriminate|]. injection S as <-. discriminate.
    + apply IH; [lia|reflexivity].
    + destruct (f_done f); [apply IH; [lia|reflexivity]|]. unfold open_file. destruct (String.eqb w "-"); [apply IH; [lia|exact X]|].
      destruct (fs w); [apply IH; [lia|exact X]|discriminate].
Qed.
Lemma open_ok : forall fs w d, open_file fs w = inl d -> opens fs [Some w] (Some d).
Proof.
  intros fs w d H. unfold open_file in H. destruct (String.eqb_spec w "-") as [->|N].
  - injection H as <-. right. left. auto.
  - destruct (fs w) as [x|] eqn:F; [|discriminate]. injection H as <-. right. right. exists w, x. auto.
Qed.
Lemma open_not_args : forall fs w p lv fl, open_file fs w = inr p -> p <> PArgs lv fl.
Proof. intros fs w p lv fl H. unfold open_file in H. destruct (String.eqb w "-"); [discriminate|]. destruct (fs w); [discriminate|]. injection H as <-. discriminate. Qed.
Lemma store_not_args : forall w f p lv fl, store_level w f = inr p -> p <> PArgs lv fl.
Proof. intros w f p lv fl S. unfold store_level in S. destruct (String.eqb _ _); [discriminate|]. destruct (existsb _ _); [discriminate|]. injection S as <-. discriminate. Qed.
Lemma flags_not_args : forall e b lv fl, more_flags e b <> PArgs lv fl.
Proof.
  intros e b lv fl. induction e as [|c e IH]; [discriminate|]. cbn [more_flags]. destruct (known _) as [[]|]; [| | |discriminate].
  all: destruct e; try discriminate; try exact IH. destruct b; discriminate.
Qed.
Lemma consume_sound : forall fs n l f lv fl argv, (List.length l <= n)%nat -> classify argv = Some l -> consume fs l f = PArgs lv fl ->
  exists it, command_line it argv /\ f_extra f = false /\ lv = level_asked (f_level f) it /\
    (if f_done f then slots it = [] /\ fl = f_file f else opens fs (slots it) fl).
Proof.
  intros fs. induction n as [|n IH]; intros l f lv fl argv L C E.
  - destruct l; [|cbn in L; lia]. apply classify_nil in C. subst argv. exists []. split; [constructor|].
    unfold consume in E. cbn [has_option existsb first_word] in E. destruct (f_done f); cbn [f_extra f_level f_file List.length Nat.eqb negb] in E; rewrite Bool.orb_false_r in E;
      (destruct (f_extra f); [discriminate|]); injection E as <- <-; (split; [reflexivity|]); (split; [reflexivity|]); [now split|]. left. auto.
  - destruct (f_extra f) eqn:X; [exfalso; apply (extra_left fs (List.length l) l f lv fl (le_n _) X E)|].
    destruct (has_option l) eqn:H.
    2:{ destruct (f_done f) eqn:D.
        - rewrite consume_done in E by assumption. rewrite X in E. destruct l as [|x l]; [|discriminate E]. apply classify_nil in C. subst argv.
          cbn in E. injection E as <- <-. exists []. split; [constructor|]. now repeat split.
        - assert (E' : match first_word l with
              | (None, rest) => if negb (Nat.eqb (List.length rest) 0) then PUsage else PArgs (f_level f) None
              | (Some w, rest) => match open_file fs w with inl d => if negb (Nat.eqb (List.length rest) 0) then PUsage else PArgs (f_level f) (Some d) | inr p => p end
              end = PArgs lv fl).
          { rewrite <- E. destruct l as [|x l]; unfold consume; cbv zeta; fold consume; rewrite H, D; destruct (first_word _) as [[w|] rest]; cbn [f_extra f_level f_file]; rewrite ?X; reflexivity. }
          clear E. destruct l as [|[w k] l].
          + apply classify_nil in C. subst argv. cbn in E'. injection E' as <- <-. exists []. split; [constructor|]. split; [reflexivity|]. split; [reflexivity|]. left. auto.
          + apply classify_cons in C. destruct C as (rest & -> & [(-> & -> & ->)|(N & P & C)]).
            * destruct rest as [|v rest].
              -- cbn in E'. injection E' as <- <-. exists [Stop]. split; [constructor|]. split; [reflexivity|]. split; [reflexivity|]. left. auto.
              -- cbn [map first_word] in E'. destruct (open_file fs v) as [d|p] eqn:O; [|exfalso; exact (open_not_args _ _ _ _ _ O E')].
                 destruct rest; [|discriminate E']. cbn in E'. injection E' as <- <-. exists [Binary v]. split; [constructor|]. split; [reflexivity|].
                 split; [reflexivity|]. apply open_ok, O.
            * assert (K : k = Arg).
              { cbn [has_option existsb snd] in H. destruct k as [|o|]; [reflexivity|discriminate|]. destruct (word_kinds w N); congruence. }
              subst k. assert (F : file_word w).
              { destruct (word_kinds w N); congruence. }
              assert (R : exists d, open_file fs w = inl d /\ lv = f_level f /\ fl = Some d /\ (l = [] \/ exists v, l = [(v, Dashes)])).
              { destruct l as [|[v k'] l].
                - cbn [first_word] in E'. destruct (open_file fs w) as [d|p] eqn:O; [|exfalso; exact (open_not_args _ _ _ _ _ O E')]. cbn in E'. injection E' as <- <-.
                  exists d. auto.
                - destruct k'; cbn [first_word] in E'; (destruct (open_file fs w) as [d|p] eqn:O; [|exfalso; exact (open_not_args _ _ _ _ _ O E')]); try discriminate E'.
                  destruct l; [|discriminate E']. cbn in E'. injection E' as <- <-. exists d. repeat split. right. now exists v. }
              destruct R as (d & O & -> & -> & [->|(v & ->)]).
              -- apply classify_nil in C. subst rest. exists [Binary w]. split; [constructor; [exact F|constructor]|]. split; [reflexivity|]. split; [reflexivity|]. apply open_ok, O.
              -- apply classify_cons in C. destruct C as (r & -> & [(-> & _ & Z)|(N' & P' & _)]).
                 ++ destruct r; [|discriminate Z]. exists [Binary w]. split; [now constructor|]. split; [reflexivity|]. split; [reflexivity|]. apply open_ok, O.
                 ++ exfalso. destruct (word_kinds v N'); congruence. }
    destruct l as [|[w k] l]; [discriminate|]. cbn [List.length] in L. cbn [consume] in E. rewrite H in E.
    apply classify_cons in C. destruct C as (rest & -> & [(-> & -> & ->)|(N & P & C)]).
    { exfalso. cbn [has_option existsb snd] in H. fold (has_option (map (fun x => (x, Arg)) rest)) in H. rewrite no_options in H. discriminate. }
    destruct k as [|[[[[] o] [e|]]|]|]; try discriminate E.
    + assert (F : file_word w) by (destruct (word_kinds w N); congruence).
      destruct (f_done f) eqn:D; [exfalso; refine (extra_left fs _ l _ lv fl (le_n _) _ E); reflexivity|].
      destruct (open_file fs w) as [d|p] eqn:O; [|exfalso; exact (open_not_args _ _ _ _ _ O E)].
      destruct (IH l _ lv fl rest ltac:(lia) C E) as (it & CL & _ & LV & SL & FL). cbn [f_level f_file] in LV, FL.
      exists (Binary w :: it). split; [now constructor|]. split; [reflexivity|]. split; [exact LV|]. cbn [slots flat_map app]. fold (slots it). rewrite SL, FL. apply open_ok, O.
    + exfalso. destruct (String.eqb o "-h"); [|discriminate]. exact (flags_not_args _ _ _ _ E).
    + destruct (store_level (of_chars e) f) as [f'|p] eqn:S; [|exfalso; exact (store_not_args _ _ _ _ _ S E)].
      apply store_ok in S. destruct S as (v & -> & V). destruct (IH l _ lv fl rest ltac:(lia) C E) as (it & CL & _ & LV & SL). cbn [f_level f_file f_done] in LV, SL.
      exists (SetLevel v :: it). assert (J : joined (of_chars e) w).
      { destruct (word_kinds w N) as [Q _|? Q I|? e' Q J|? Q I|? ? Q I|? ? Q I|Q I|Q I]; try congruence. rewrite P in Q. injection Q as -> ->. now rewrite of_chars_chars. }
      split; [|split; [reflexivity|split; [exact LV|exact SL]]]. destruct V as [[V ->]|[V ->]]; [rewrite V in J; now constructor|]. now apply (cl_joined (of_chars e)).
    + destruct l as [|[v [|?|]] l]; try discriminate E. destruct (store_level v f) as [f'|p] eqn:S; [|exfalso; exact (store_not_args _ _ _ _ _ S E)].
      apply classify_cons in C. destruct C as (r & -> & [(_ & Z & _)|(N' & P' & C)]); [discriminate|].
      apply store_ok in S. destruct S as (u & -> & V). destruct V as [[V _]|[V ->]]; [now destruct N'|]. cbn [List.length] in L.
      destruct (IH l _ lv fl r ltac:(lia) C E) as (it & CL & _ & LV & SL). cbn [f_level f_file f_done] in LV, SL.
      exists (SetLevel (Some v) :: it). split; [|split; [reflexivity|split; [exact LV|exact SL]]]. constructor; [exact V| |exact CL].
      destruct (word_kinds w N) as [Q _|? Q I|? e' Q J|? Q I|? ? Q I|? ? Q I|Q I|Q I]; congruence.
    + exfalso. refine (extra_left fs _ l _ lv fl (le_n _) _ E). reflexivity.
    + exfalso. destruct (word_kinds w N); congruence.
Qed.
Lemma opens_one : forall fs n r fl, opens fs (Some n :: r) fl -> r = [] /\ exists d, open_file fs n = inl d /\ fl = Some d.
Proof.
  intros fs n r fl [[[X|X] _]|[[X ->]|(m & d & X & N & F & ->)]]; try discriminate X.
  - injection X as -> ->. split; [reflexivity|]. exists FromStdin. now split.
  - injection X as -> ->. split; [reflexivity|]. exists (FromFile d). unfold open_file. destruct (String.eqb_spec m "-"); [contradiction|]. rewrite F. now split.
Qed.
Lemma classify_arg : forall w k argv l, w <> "--" -> parse_optional w = Some k -> classify argv = Some l -> classify (w :: argv) = Some ((w, k) :: l).
Proof. intros w k argv l N P C. cbn [classify]. destruct (String.eqb_spec w "--"); [contradiction|]. now rewrite P, C. Qed.
Lemma consume_complete : forall fs it argv, command_line it argv -> forall f fl, f_extra f = false ->
  (if f_done f then slots it = [] /\ fl = f_file f else opens fs (slots it) fl) ->
  exists l, classify argv = Some l /\ consume fs l f = PArgs (level_asked (f_level f) it) fl.
Proof.
  intros fs it argv CL. induction CL as [| |n|n F|n it argv F CL IH|v a it argv V A CL IH|v w it argv V J CL IH|w it argv J CL IH]; intros f fl X SL.
  - exists []. split; [reflexivity|]. unfold consume. cbn [has_option existsb first_word]. destruct (f_done f) eqn:D; cbn [f_extra f_level f_file]; rewrite X; cbn.
    + destruct SL as [_ ->]. reflexivity.
    + destruct SL as [[_ ->]|[[Y _]|(m & d & Y & _)]]; [reflexivity|discriminate|discriminate].
  - exists [("--", Dashes)]. split; [reflexivity|]. destruct (f_done f) eqn:D; [destruct SL as [SL _]; discriminate|].
    cbn. rewrite D. cbn. rewrite X. cbn. destruct SL as [[_ ->]|[[Y _]|(m & d & Y & _)]]; [reflexivity|discriminate|discriminate].
  - exists [("--", Dashes); (n, Arg)]. split; [reflexivity|]. destruct (f_done f) eqn:D; [destruct SL as [SL _]; discriminate|].
    apply opens_one in SL. destruct SL as (_ & d & O & ->). cbn. rewrite D, O. cbn. now rewrite X.
  - assert (N : n <> "--") by (intros ->; exact (file_dashes F)).
    exists [(n, Arg); ("--", Dashes)]. split; [apply classify_arg; [exact N|now apply file_parse|reflexivity]|].
    destruct (f_done f) eqn:D; [destruct SL as [SL _]; discriminate|]. apply opens_one in SL. destruct SL as (_ & d & O & ->). cbn. rewrite D, O. cbn. now rewrite X.
  - assert (N : n <> "--") by (intros ->; exact (file_dashes F)).
    destruct (f_done f) eqn:D; [destruct SL as [SL _]; discriminate|]. apply opens_one in SL. fold (slots it) in SL. destruct SL as (Z & d & O & ->).
    destruct (IH (mkfound (f_level f) (Some d) true (f_extra f)) (Some d) X (conj Z eq_refl)) as (l & C & E). exists ((n, Arg) :: l).
    split; [apply classify_arg; [exact N|now apply file_parse|exact C]|]. cbn [level_asked fold_left]. fold (level_asked (f_level f) it). cbn [f_level] in E.
    destruct (has_option l) eqn:H.
    + cbn [consume]. cbn [has_option existsb snd]. fold (has_option l). rewrite H, D, O. cbn [orb]. exact E.
    + rewrite consume_done in E by (assumption || reflexivity). cbn [f_extra f_level f_file] in E. rewrite X in E. destruct l as [|x l]; [|discriminate E].
      cbn. rewrite D, O. cbn. rewrite X. cbn. exact E.
  - assert (P : exists o, parse_optional a = Some (Opt (Some (ADebug, o, None))) /\ a <> "--").
    { cbn [In names_level] in A. repeat (destruct A as [<-|A]; [eexists; split; [reflexivity|discriminate]|]). destruct A. }
    destruct P as (o & P & N). destruct (level_file_word v V) as [VF VN].
    destruct (IH (mkfound (Some v) (f_file f) (f_done f) (f_extra f)) fl X SL) as (l & C & E). exists ((a, Opt (Some (ADebug, o, None))) :: (v, Arg) :: l). split.
    + apply classify_arg; [exact N|exact P|]. apply classify_arg; [exact VN|now apply file_parse|exact C].
    + cbn [consume]. change (has_option ((a, Opt (Some (ADebug, o, None))) :: (v, Arg) :: l)) with true. rewrite (store_level_ok v f V). exact E.
  - destruct (joined_parse v w J) as [o P]. destruct (joined_dash v w J) as (_ & _ & N & _).
    destruct (IH (mkfound (Some v) (f_file f) (f_done f) (f_extra f)) fl X SL) as (l & C & E). exists ((w, Opt (Some (ADebug, o, Some (chars v)))) :: l). split.
    + apply classify_arg; [exact N|exact P|exact C].
    + cbn [consume]. change (has_option ((w, Opt (Some (ADebug, o, Some (chars v)))) :: l)) with true. rewrite of_chars_chars, (store_level_ok v f V). exact E.
  - destruct (joined_parse "--" w J) as [o P]. destruct (joined_dash "--" w J) as (_ & _ & N & _).
    destruct (IH (mkfound None (f_file f) (f_done f) (f_extra f)) fl X SL) as (l & C & E). exists ((w, Opt (Some (ADebug, o, Some (chars "--")))) :: l). split.
    + apply classify_arg; [exact N|exact P|exact C].
    + cbn [consume]. change (has_option ((w, Opt (Some (ADebug, o, Some (chars "--")))) :: l)) with true. rewrite of_chars_chars. exact E.
Qed.

(*@doc C98: the arguments are accepted exactly if they are log levels and at most one file
that can be opened, in any order and spelling; then the level is the last one given, or
"warning", and the file is that one (one dash is standard input).  Everything else shows
the help or the version, or is an error.
@*)
Lemma C98_arguments_proof : forall fs argv level file,
  get_args fs argv = PArgs level file <->
  exists it, command_line it argv /\ level = level_asked (Some "warning") it /\ opens fs (slots it) file.
Proof.
  intros fs argv level file. unfold get_args. split.
  - intros E. destruct (classify argv) as [l|] eqn:C; [|discriminate].
    destruct (consume_sound fs (List.length l) l _ level file argv (le_n _) C E) as (it & CL & _ & LV & O). exists it. auto.
  - intros (it & CL & -> & O). destruct (consume_complete fs it argv CL (mkfound (Some "warning") None false false) file eq_refl O) as (l & C & E).
    rewrite C. exact E.
Qed.
(*@ex
Example C98_arguments_ex : (exists it, command_line it ["--deb=info"; "a.bin"; "-d"; "error"] /\ level_asked (Some "warning") it = Some "error" /\
    slots it = [Some "a.bin"]) /\
  get_args ex_files ["--deb=info"; "a.bin"; "-d"; "error"] = get_args ex_files ["-derror"; "--"; "a.bin"] /\
  get_args ex_files ["a.bin"; "a.bin"] = PUsage /\ get_args ex_files ["b.bin"] = PUsage.
Proof.
  split; [|repeat split; vm_compute; reflexivity]. exists [SetLevel (Some "info"); Binary "a.bin"; SetLevel (Some "error")].
  split; [|split; reflexivity]. apply (cl_joined "info"); [vm_compute; tauto|right; exists "--deb"; split; [vm_compute; tauto|reflexivity]|].
  apply cl_file; [left; intros [r X]; discriminate|]. apply cl_level; [vm_compute; tauto|vm_compute; tauto|constructor].
Qed.
@*)

(** ** Help, version, errors *)
Lemma unknown_parse : forall w, unknown_word w -> parse_optional w = Some (Opt None).
Proof.
  intros w (B0 & W & G & ND & NH & N & NE & NA).
  destruct (word_kinds w N) as [P F|o P I|o e P J|o P I|o e P D|o e P D|P B|P U]; [| | | | | | |exact P]; exfalso.
  - destruct F as [F|[F|(_ & _ & F & _)]]; [now apply F|now apply W|now apply G].
  - destruct (NA w) as [X _]; [apply in_or_app; now left|now apply X].
  - destruct (joined_dash e w J) as (_ & _ & _ & [D|(a & A & D)]); [now apply ND|]. refine (proj2 (NA a _) D). apply in_or_app. now left.
  - destruct (NA w) as [X _]; [apply in_or_app; right; apply in_or_app; now left|now apply X].
  - destruct D as [(_ & D)|(_ & (a & A & ->))].
    + apply NH. destruct D as [(-> & _)| ->]; eexists; reflexivity.
    + refine (proj2 (NA a _) _); [apply in_or_app; right; apply in_or_app; now left|]. exists (of_chars e). apply sapp_assoc.
  - destruct e as [e|].
    + destruct D as (a & A & ->). refine (proj2 (NA a _) _); [apply in_or_app; right; apply in_or_app; now right|]. exists (of_chars e). apply sapp_assoc.
    + destruct (NA w) as [X _]; [apply in_or_app; right; apply in_or_app; now right|now apply X].
  - now apply NE.
Qed.
Lemma classify_unambiguous : forall argv, (exists l, classify argv = Some l) <-> unambiguous argv.
Proof.
  induction argv as [|w argv IH]; split.
  - intros _ a w b E. destruct a; discriminate.
  - intros _. now exists [].
  - intros [l C] a v b E N B. cbn [classify] in C. destruct (String.eqb_spec w "--") as [->|W].
    + destruct a as [|x a]; [injection E as <- _; destruct B; discriminate|]. injection E as <- _. apply N. now left.
    + destruct (parse_optional w) as [k|] eqn:P; [|discriminate]. destruct (classify argv) as [l'|]; [|discriminate]. destruct a as [|x a].
      * injection E as <- _. assert (X : parse_optional w = None) by (destruct B as [r ->]; exact (parse_long "=" r)). congruence.
      * injection E as <- E. refine (proj1 IH _ a v b E _ B); [now exists l'|]. intro I. apply N. now right.
  - intros U. cbn [classify]. destruct (String.eqb_spec w "--") as [->|W]; [eexists; reflexivity|].
    assert (UA : unambiguous argv).
    { intros a v b E N. apply (U (w :: a) v b); [now rewrite E|]. intros [X|X]; [now apply W|now apply N]. }
    apply IH in UA. destruct UA as [l ->]. assert (NB : ~ begins "--=" w) by (apply (U [] w argv eq_refl); intros []).
    destruct (word_kinds w W) as [P _|o P _|o e P _|o P _|o e P _|o e P _|P B|P _]; rewrite P; try (eexists; reflexivity). now destruct NB.
Qed.
Definition is_opt (k : kind) : bool := match k with Opt _ => true | _ => false end.
Lemma has_app : forall l w k l', is_opt k = true -> has_option (l ++ (w, k) :: l') = true.
Proof. intros l w k l' H. unfold has_option. rewrite existsb_app. cbn [existsb snd]. destruct k; try discriminate. rewrite Bool.orb_true_l. apply Bool.orb_true_r. Qed.
Lemma classify_app : forall rest l, classify rest = Some l -> forall pre lp, ~ In "--" pre -> classify pre = Some lp -> classify (pre ++ rest) = Some (lp ++ l).
Proof.
  intros rest l C. induction pre as [|w pre IH]; intros lp N P.
  - injection P as <-. exact C.
  - cbn [classify app] in *. destruct (String.eqb_spec w "--") as [->|W]; [destruct N; now left|]. destruct (parse_optional w) as [k|]; [|discriminate].
    destruct (classify pre) as [l'|]; [|discriminate]. injection P as <-. rewrite (IH l') by (auto; intro; apply N; now right). reflexivity.
Qed.
Lemma level_name : forall a, In a names_level -> exists o, parse_optional a = Some (Opt (Some (ADebug, o, None))) /\ a <> "--".
Proof. intros a A. cbn [In names_level] in A. repeat (destruct A as [<-|A]; [eexists; split; [reflexivity|discriminate]|]). destruct A. Qed.
Lemma lenient_dashes : forall fs b argv, lenient fs b argv -> ~ In "--" argv.
Proof.
  intros fs b argv L. induction L as [b|n argv F O L IH|n argv F L IH|b w argv U L IH|b l a argv V A L IH|b l w argv V J L IH]; [intros []|intros [X|X]; try now apply IH..].
  - subst n. exact (file_dashes F).
  - subst n. exact (file_dashes F).
  - subst w. destruct U as (_ & _ & _ & _ & _ & N & _). now apply N.
  - subst a. destruct (level_name _ A) as (o & _ & N). now apply N.
  - destruct X as [X|X]; [|now apply IH]. destruct (level_file_word _ V) as [_ N]. now apply N.
  - subst w. destruct (joined_dash _ _ J) as (_ & _ & N & _). now apply N.
Qed.
Ltac option_head := match goal with |- (if has_option (?a :: ?l) then _ else _) = _ => change (has_option (a :: l)) with true end.
Lemma lenient_parse : forall fs b argv, lenient fs b argv -> forall f, f_done f = b ->
  exists l, classify argv = Some l /\ forall w k l', is_opt k = true -> exists f', consume fs (l ++ (w, k) :: l') f = consume fs ((w, k) :: l') f'.
Proof.
  intros fs b argv L. induction L as [b|n argv F O L IH|n argv F L IH|b w argv U L IH|b v a argv V A L IH|b v w argv V J L IH]; intros f D.
  - exists []. split; [reflexivity|]. intros w k l' _. now exists f.
  - assert (W : n <> "--") by (intros ->; exact (file_dashes F)).
    assert (OK : exists d, open_file fs n = inl d).
    { unfold open_file. destruct (String.eqb_spec n "-"); [eexists; reflexivity|]. destruct O as [O|O]; [contradiction|]. destruct (fs n); [eexists; reflexivity|now destruct O]. }
    destruct OK as [d OK]. destruct (IH (mkfound (f_level f) (Some d) true (f_extra f)) eq_refl) as (l & C & E). exists ((n, Arg) :: l).
    split; [apply classify_arg; [exact W|now apply file_parse|exact C]|]. intros w k l' K. destruct (E w k l' K) as (f' & E'). exists f'.
    rewrite <- E'. cbn [app]. cbn [consume]. change (has_option ((n, Arg) :: l ++ (w, k) :: l')) with (has_option (l ++ (w, k) :: l')). rewrite has_app by exact K.
    rewrite D, OK. reflexivity.
  - assert (W : n <> "--") by (intros ->; exact (file_dashes F)).
    destruct (IH (mkfound (f_level f) (f_file f) true true) eq_refl) as (l & C & E). exists ((n, Arg) :: l).
    split; [apply classify_arg; [exact W|now apply file_parse|exact C]|]. intros w k l' K. destruct (E w k l' K) as (f' & E'). exists f'.
    rewrite <- E'. cbn [app]. cbn [consume]. change (has_option ((n, Arg) :: l ++ (w, k) :: l')) with (has_option (l ++ (w, k) :: l')). rewrite has_app by exact K.
    rewrite D. reflexivity.
  - assert (W : w <> "--") by (destruct U as (_ & _ & _ & _ & _ & N & _); exact N).
    destruct (IH (mkfound (f_level f) (f_file f) (f_done f) true) D) as (l & C & E). exists ((w, Opt None) :: l).
    split; [apply classify_arg; [exact W|now apply unknown_parse|exact C]|]. intros w' k l' K. destruct (E w' k l' K) as (f' & E'). exists f'.
    rewrite <- E'. cbn [app consume]. option_head. reflexivity.
  - destruct (level_name a A) as (o & P & W). destruct (level_file_word v V) as [VF VN].
    destruct (IH (mkfound (Some v) (f_file f) (f_done f) (f_extra f)) D) as (l & C & E).
    exists ((a, Opt (Some (ADebug, o, None))) :: (v, Arg) :: l). split.
    + apply classify_arg; [exact W|exact P|]. apply classify_arg; [exact VN|now apply file_parse|exact C].
    + intros w k l' K. destruct (E w k l' K) as (f' & E'). exists f'. rewrite <- E'. cbn [app consume]. option_head. rewrite (store_level_ok v f V). reflexivity.
  - destruct (joined_parse v w J) as [o P]. destruct (joined_dash v w J) as (_ & _ & W & _).
    assert (S : exists u, store_level v f = inl (mkfound u (f_file f) (f_done f) (f_extra f))).
    { destruct V as [V| ->]; [exists (Some v); now apply store_level_ok|exists None; reflexivity]. }
    destruct S as [u S]. destruct (IH (mkfound u (f_file f) (f_done f) (f_extra f)) D) as (l & C & E).
    exists ((w, Opt (Some (ADebug, o, Some (chars v)))) :: l). split.
    + apply classify_arg; [exact W|exact P|exact C].
    + intros w' k l' K. destruct (E w' k l' K) as (f' & E'). exists f'. rewrite <- E'. cbn [app consume]. option_head. rewrite of_chars_chars, S. reflexivity.
Qed.
Lemma known_letter : forall c, known ["-"%char; c] = if Ascii.eqb c "h" then Some AHelp else if Ascii.eqb c "d" then Some ADebug else None.
Proof. intros c. destruct c as [[] [] [] [] [] [] [] []]; reflexivity. Qed.
Lemma flags_help : forall e b, more_flags e b = PHelp <->
  exists k, e = repeat "h"%char (S k) \/ exists y, e = repeat "h"%char k ++ "d"%char :: y /\ (y <> [] \/ b = true).
Proof.
  intros e b. induction e as [|c e IH].
  - split; [discriminate|]. intros [k [X|(y & X & _)]]; [discriminate|]. destruct k; discriminate.
  - cbn [more_flags]. rewrite known_letter. destruct (Ascii.eqb_spec c "h") as [->|H].
    + destruct e as [|d e].
      * split; [|reflexivity]. intros _. exists 0%nat. now left.
      * rewrite IH. split.
        -- intros [k [->|(y & -> & Y)]]; exists (S k); [now left|]. right. exists y. now split.
        -- intros [k [X|(y & X & Y)]].
           ++ cbn [repeat] in X. injection X as X. destruct k as [|k]; [discriminate|]. exists k. left. exact X.
           ++ destruct k as [|k]; [discriminate|]. cbn [repeat app] in X. injection X as X. exists k. right. exists y. now split.
    + destruct (Ascii.eqb_spec c "d") as [->|D].
      * destruct e as [|d e].
        -- split.
           ++ destruct b; [|discriminate]. intros _. exists 0%nat. right. exists []. split; [reflexivity|]. now right.
           ++ intros [k [X|(y & X & Y)]]; [discriminate|]. destruct k as [|k]; [|discriminate]. injection X as <-. destruct Y as [Y| ->]; [now destruct Y|reflexivity].
        -- split; [|reflexivity]. intros _. exists 0%nat. right. exists (d :: e). split; [reflexivity|]. left. discriminate.
      * split; [discriminate|]. intros [k [X|(y & X & Y)]]; [injection X as X _; contradiction|]. destruct k as [|k]; injection X as X _; contradiction.
Qed.
Lemma flags_crash : forall e b x, more_flags e b = PCrash x -> e = [] /\ x = IndexError.
Proof.
  intros e b x H. destruct e as [|c e]; [injection H as <-; auto|]. exfalso. revert c H. induction e as [|d e IH]; intros c H; cbn [more_flags] in H.
  - destruct (known _) as [[]|]; try discriminate. destruct b; discriminate.
  - destruct (known _) as [[]|]; try discriminate; exact (IH d H).
Qed.
Lemma flags_version : forall e b, more_flags e b <> PVersion.
Proof.
  intros e b. induction e as [|c e IH]; [discriminate|]. cbn [more_flags]. destruct (known _) as [[]|]; [| | |discriminate].
  all: destruct e; try discriminate; try exact IH. destruct b; discriminate.
Qed.
Lemma follows_spec : forall rest l, classify rest = Some l -> (arg_follows l = true <-> exists n r, rest = n :: r /\ file_word n).
Proof.
  intros rest l C. split.
  - destruct l as [|[v [|?|]] l]; try discriminate. intros _. apply classify_cons in C. destruct C as (r & -> & [(_ & X & _)|(N & P & _)]); [discriminate|].
    exists v, r. split; [reflexivity|]. destruct (word_kinds v N); congruence.
  - intros (n & r & -> & F). assert (N : n <> "--") by (intros ->; exact (file_dashes F)). cbn [classify] in C. destruct (String.eqb_spec n "--"); [contradiction|].
    rewrite (file_parse n F N) in C. destruct (classify r); [|discriminate]. injection C as <-. reflexivity.
Qed.
(** What a word that ends the parsing leads to. *)
Definition stops (p : parsed) (w : string) (b : list string) : Prop :=
  match p with
  | PHelp => asks_help w b
  | PVersion => In w names_version
  | PCrash x => x = IndexError /\ w = "-h="
  | _ => False
  end.
Definition ending (p : parsed) : bool := match p with PHelp | PVersion | PCrash _ => true | _ => false end.
Lemma consume_stops : forall fs n l f argv, (List.length l <= n)%nat -> classify argv = Some l -> ending (consume fs l f) = true ->
  exists a w b, argv = a ++ w :: b /\ lenient fs (f_done f) a /\ stops (consume fs l f) w b.
Proof.
  intros fs. assert (FN : forall f (rest : list (string * kind)), ending (if (f_extra f || negb (Nat.eqb (List.length rest) 0))%bool then PUsage else PArgs (f_level f) (f_file f)) <> true).
  { intros g rest. destruct (_ || _)%bool; discriminate. }
  assert (ON : forall w p, open_file fs w = inr p -> ending p <> true).
  { intros w p H. unfold open_file in H. destruct (String.eqb w "-"); [discriminate|]. destruct (fs w); [discriminate|]. injection H as <-. discriminate. }
  assert (SN : forall w f p, store_level w f = inr p -> ending p <> true).
  { intros w f p S. unfold store_level in S. destruct (String.eqb _ _); [discriminate|]. destruct (existsb _ _); [discriminate|]. injection S as <-. discriminate. }
  induction n as [|n IH]; intros l f argv L C E.
  - destruct l; [|cbn in L; lia]. exfalso. unfold consume in E. cbn [has_option existsb first_word] in E. destruct (f_done f); exact (FN _ [] E).
  - destruct (has_option l) eqn:H.
    2:{ exfalso. destruct (f_done f) eqn:D; [rewrite consume_done in E by assumption; exact (FN _ _ E)|].
        destruct l as [|y l]; unfold consume in E; cbv zeta in E; fold consume in E; rewrite H, D in E; destruct (first_word _) as [[w|] rest]; try exact (FN _ _ E).
        all: destruct (open_file fs w) eqn:O; [exact (FN _ _ E)|exact (ON _ _ O E)]. }
    destruct l as [|[w k] l]; [discriminate|]. cbn [List.length] in L. cbn [consume] in E |- *. rewrite H in E |- *.
    apply classify_cons in C. destruct C as (rest & -> & [(-> & -> & ->)|(N & P & C)]).
    { exfalso. cbn [has_option existsb snd] in H. fold (has_option (map (fun x => (x, Arg)) rest)) in H. rewrite no_options in H. discriminate. }
    assert (WK := word_kinds w N).
    assert (K : forall f' pre, (forall a, lenient fs (f_done f') a -> lenient fs (f_done f) (pre ++ a)) -> forall r l', rest = r -> (List.length l' <= n)%nat -> classify r = Some l' ->
                ending (consume fs l' f') = true -> exists a v b, pre ++ r = a ++ v :: b /\ lenient fs (f_done f) a /\ stops (consume fs l' f') v b).
    { intros f' pre LE r l' _ L' C' E'. destruct (IH l' f' r L' C' E') as (a & v & b & -> & LA & S). exists (pre ++ a), v, b.
      split; [apply app_assoc|]. split; [now apply LE|exact S]. }
    destruct k as [|[[[[] o] [e|]]|]|]; try discriminate E.
    + assert (F : file_word w) by (destruct WK; congruence). destruct (f_done f) eqn:D.
      * apply (K _ [w]) with (r := rest); [|reflexivity|lia|exact C|exact E]. intros a A. now apply le_more.
      * destruct (open_file fs w) as [d|p] eqn:O; [|exfalso; exact (ON _ _ O E)].
        apply (K _ [w]) with (r := rest); [|reflexivity|lia|exact C|exact E]. intros a A. apply le_file; [exact F| |exact A].
        unfold open_file in O. destruct (String.eqb_spec w "-"); [now left|]. right. destruct (fs w); [discriminate|discriminate O].
    + exists [], w, rest. split; [reflexivity|]. split; [constructor|]. destruct (String.eqb_spec o "-h") as [->|]; [|discriminate].
      assert (Q : w = ("-h" ++ of_chars e)%string /\ e <> [] /\ ~ begins "=" (of_chars e) \/ w = ("-h=" ++ of_chars e)%string).
      { destruct WK as [Q _|? Q I|? e' Q J|? Q I|? ? Q I|? ? Q I|Q I|Q I]; try congruence. rewrite P in Q. injection Q as <- <-.
        destruct I as [[_ I]|[I _]]; [exact I|discriminate]. }
      destruct (more_flags e (arg_follows l)) as [| | | |x] eqn:M; try discriminate E.
      * cbn [stops]. right. apply flags_help in M. destruct M as [k M]. exists (of_chars e), k. rewrite chars_of_chars. split.
        -- destruct Q as [(Q & _ & Q')|Q]; [left; now split|now right].
        -- destruct M as [M|(y & M & Y)]; [now left|]. right. exists y. split; [exact M|]. destruct Y as [Y|Y]; [now left|]. right. now apply (follows_spec rest l C).
      * destruct (flags_version _ _ M).
      * apply flags_crash in M. destruct M as [-> ->]. split; [reflexivity|]. destruct Q as [(_ & X & _)|Q]; [now destruct X|exact Q].
    + exists [], w, rest. split; [reflexivity|]. split; [constructor|]. left.
      destruct WK as [Q _|? Q I|? e' Q J|? Q I|? ? Q I|? ? Q I|Q I|Q I]; congruence.
    + exists [], w, rest. split; [reflexivity|]. split; [constructor|]. cbn [stops].
      destruct WK as [Q _|? Q I|? e' Q J|? Q I|? ? Q I|? e' Q I|Q I|Q I]; try congruence. assert (e' = None) as -> by congruence. exact I.
    + destruct (store_level (of_chars e) f) as [f'|p] eqn:S; [|exfalso; exact (SN _ _ _ S E)]. apply store_ok in S. destruct S as (u & -> & V).
      apply (K _ [w]) with (r := rest); [|reflexivity|lia|exact C|exact E]. intros a A. apply (le_joined fs _ (of_chars e)); [destruct V as [[V _]|[V _]]; auto| |exact A].
      destruct WK as [Q _|? Q I|? e' Q J|? Q I|? ? Q I|? ? Q I|Q I|Q I]; try congruence. rewrite P in Q. injection Q as -> ->. now rewrite of_chars_chars.
    + destruct l as [|[v [|?|]] l]; try discriminate E. destruct (store_level v f) as [f'|p] eqn:S; [|exfalso; exact (SN _ _ _ S E)].
      apply classify_cons in C. destruct C as (r & -> & [(_ & Z & _)|(N' & P' & C)]); [discriminate|]. cbn [List.length] in L.
      apply store_ok in S. destruct S as (u & -> & [[V _]|[V ->]]); [now destruct N'|].
      destruct (IH l _ r ltac:(lia) C E) as (a & x & b & -> & LA & S). exists (w :: v :: a), x, b. split; [reflexivity|]. split; [|exact S].
      apply le_level; [exact V| |exact LA]. destruct WK as [Q _|? Q I|? e' Q J|? Q I|? ? Q I|? ? Q I|Q I|Q I]; congruence.
    + apply (K _ [w]) with (r := rest); [|reflexivity|lia|exact C|exact E]. intros a A. apply le_unknown; [|exact A].
      destruct WK as [Q _|? Q I|? e' Q J|? Q I|? ? Q I|? ? Q I|Q I|Q I]; congruence.
    + exfalso. destruct WK; congruence.
Qed.
Lemma stops_parse : forall fs w b f p, unambiguous (w :: b) -> w <> "--" -> stops p w b -> exists k l, parse_optional w = Some k /\ is_opt k = true /\ classify b = Some l /\ consume fs ((w, k) :: l) f = p.
Proof.
  intros fs w b f p U N S. apply classify_unambiguous in U. destruct U as [l' C]. cbn [classify] in C. destruct (String.eqb_spec w "--"); [contradiction|].
  destruct (parse_optional w) as [k|] eqn:P; [|discriminate]. destruct (classify b) as [l|] eqn:CB; [|discriminate]. exists k, l. split; [reflexivity|].
  destruct p as [| | | |x]; cbn [stops] in S; [destruct S|destruct S as [H|H]| |destruct S|destruct S as [-> ->]].
  - assert (X : exists o, k = Opt (Some (AHelp, o, None))).
    { cbn [In names_help] in H. repeat (destruct H as [<-|H]; [eexists; cbv in P; injection P as <-; reflexivity|]). destruct H. }
    destruct X as [o ->]. split; [reflexivity|]. split; [reflexivity|]. reflexivity.
  - destruct H as (f' & k' & W & F). assert (FL : more_flags (chars f') (arg_follows l) = PHelp).
    { apply flags_help. exists k'. destruct F as [F|(y & F & Y)]; [now left|]. right. exists y. split; [exact F|]. destruct Y as [Y|Y]; [now left|]. right. now apply (follows_spec b l CB). }
    assert (NE : f' <> "") by (intros ->; discriminate FL).
    assert (X : k = Opt (Some (AHelp, "-h", Some (chars f')))).
    { destruct W as [[-> B]| ->].
      - destruct f' as [|x r]; [now destruct NE|]. change ("-h" ++ String x r)%string with (String "-" (String "h" (String x r))) in P. rewrite parse_short in P by discriminate.
        destruct (Ascii.eqb_spec x "=") as [->|Y]; [destruct B; now exists r|]. injection P as <-. reflexivity.
      - change ("-h=" ++ f')%string with (String "-" (String "h" (String "=" f'))) in P. rewrite parse_short in P by discriminate. injection P as <-. reflexivity. }
    subst k. split; [reflexivity|]. split; [reflexivity|]. cbn [consume]. option_head. exact FL.
  - cbn [In names_version] in S. assert (X : exists o, k = Opt (Some (AVersion, o, None))).
    { repeat (destruct S as [<-|S]; [eexists; cbv in P; injection P as <-; reflexivity|]). destruct S. }
    destruct X as [o ->]. split; [reflexivity|]. split; reflexivity.
  - cbv in P. injection P as <-. split; [reflexivity|]. split; reflexivity.
Qed.
Lemma stops_dashes : forall p w b, stops p w b -> w <> "--".
Proof.
  intros p w b S ->. destruct p; cbn [stops] in S; try exact S.
  - destruct S as [S|(f & k & [[S _]|S] & _)]; [|discriminate S|discriminate S]. cbn [In names_help] in S. repeat (destruct S as [S|S]; [discriminate S|]). exact S.
  - cbn [In names_version] in S. repeat (destruct S as [S|S]; [discriminate S|]). exact S.
  - destruct S as [_ S]. discriminate.
Qed.
Lemma get_stops : forall fs argv p, ending p = true -> (get_args fs argv = p <->
  unambiguous argv /\ exists a w b, argv = a ++ w :: b /\ lenient fs false a /\ stops p w b).
Proof.
  intros fs argv p K. unfold get_args. split.
  - intros E. destruct (classify argv) as [l|] eqn:C; [|subst p; discriminate K]. split; [apply classify_unambiguous; now exists l|].
    rewrite <- E. apply (consume_stops fs (List.length l) l (mkfound (Some "warning") None false false) argv (le_n _) C). now rewrite E.
  - intros (U & a & w & b & -> & L & S). pose proof (lenient_dashes _ _ _ L) as N.
    assert (U' : unambiguous (w :: b)).
    { intros a' v b' E N' B. apply (U (a ++ a') v b'); [now rewrite <- app_assoc, E| |exact B]. intro I. apply in_app_or in I. now destruct I. }
    pose proof (stops_dashes _ _ _ S) as W.
    destruct (lenient_parse fs false a L (mkfound (Some "warning") None false false) eq_refl) as (l & C & CO).
    apply classify_unambiguous in U' as UC. destruct UC as [lw CW]. rewrite (classify_app (w :: b) lw CW a l N C).
    cbn [classify] in CW. destruct (String.eqb_spec w "--"); [contradiction|].
    destruct (parse_optional w) as [k|] eqn:P; [|discriminate]. destruct (classify b) as [lb|] eqn:CB; [|discriminate]. injection CW as <-.
    assert (O : is_opt k = true).
    { destruct (stops_parse fs w b (mkfound None None false false) p U' W S) as (k1 & l1 & P1 & O1 & _). congruence. }
    destruct (CO w k lb O) as (f' & ->). destruct (stops_parse fs w b f' p U' W S) as (k2 & l2 & P2 & _ & C2 & E2).
    rewrite P in P2. injection P2 as <-. rewrite CB in C2. injection C2 as <-. exact E2.
Qed.
Lemma get_crash : forall fs argv x, get_args fs argv = PCrash x <-> x = IndexError /\ fatal fs argv.
Proof.
  intros fs argv x. rewrite (get_stops fs argv (PCrash x) eq_refl). unfold fatal, stops. split.
  - intros (U & a & w & b & -> & L & -> & ->). split; [reflexivity|]. split; [exact U|]. exists a, b. now split.
  - intros (-> & U & a & b & -> & L). split; [exact U|]. exists a, "-h=", b. auto.
Qed.

(** ** The program *)
Lemma main_args : forall ev t fs argv lines level file, get_args fs argv = PArgs (Some level) file ->
  main ev t fs argv lines =
  match file with
  | None => ran (program ev t [] lines)
  | Some (FromFile d) => ran (program ev t d lines)
  | Some FromStdin => match typed_bytes lines with Some d => ran (tool_run (sfail (Raised ValueError)) t d) | None => Interrupted end
  end.
Proof.
  intros ev t fs argv lines level file E. unfold main, ran, program. rewrite E. destruct file as [[d|]|].
  - destruct (tool_run _ t d); reflexivity.
  - destruct (typed_bytes lines) as [d|]; [destruct (tool_run _ t d)|]; reflexivity.
  - destruct (tool_run _ t []); reflexivity.
Qed.

(*@doc C98: with a file among its arguments the program is the simulator on the contents of
that file, without one it is the simulator on nothing; the log level makes no difference.
@*)
Lemma C98_run_proof : forall ev t fs argv lines it level, command_line it argv -> level_asked (Some "warning") it = Some level ->
  (slots it = [] \/ slots it = [None] -> main ev t fs argv lines = ran (program ev t [] lines)) /\
  (forall n d, slots it = [Some n] -> n <> "-" -> fs n = Some d -> main ev t fs argv lines = ran (program ev t d lines)).
Proof.
  intros ev t fs argv lines it level CL LV. split.
  - intros S. rewrite (main_args ev t fs argv lines level None); [reflexivity|]. apply C98_arguments_proof. exists it. split; [exact CL|]. split; [now rewrite LV|]. left. auto.
  - intros n d S N F. rewrite (main_args ev t fs argv lines level (Some (FromFile d))); [reflexivity|]. apply C98_arguments_proof. exists it.
    split; [exact CL|]. split; [now rewrite LV|]. right. right. exists n, d. auto.
Qed.
(*@ex
Example C98_run_ex : exists it, command_line it ["a.bin"; "-ddebug"] /\ level_asked (Some "warning") it = Some "debug" /\ slots it = [Some "a.bin"] /\
  match DECODER_TREE with
  | Ok t => match main ex_eval t ex_files ["a.bin"; "-ddebug"] [Line "s"; Line "r0"], main ex_eval t ex_files ["-d"; "error"; "--"; "a.bin"] [Line "s"; Line "r0"] with
            | Ran s (Exit 0), Ran s' (Exit 0) => reg (sim_cpu s) 0 = 1 /\ out_text s = out_text s'
            | _, _ => False
            end
  | Err _ => False
  end.
Proof.
  exists [Binary "a.bin"; SetLevel (Some "debug")]. split.
  { apply cl_file; [left; intros [r X]; discriminate|]. apply (cl_joined "debug"); [vm_compute; tauto| |constructor]. left. split; [reflexivity|]. split; [discriminate|]. intros [r X]. discriminate. }
  split; [reflexivity|]. split; [reflexivity|]. vm_compute. split; reflexivity.
Qed.
@*)

Lemma typed_ok : forall lines d, typed_bytes lines = Some d -> bytes d.
Proof.
  unfold bytes. induction lines as [|[s|] lines IH]; intros d H; cbn [typed_bytes] in H; [injection H as <-; constructor| |discriminate].
  destruct (typed_bytes lines) as [r|]; [|discriminate]. injection H as <-. apply Forall_app. split.
  - apply Forall_forall. intros x I. apply in_map_iff in I. destruct I as (c & <- & _). pose proof (Ascii.nat_ascii_bounded c). lia.
  - constructor; [lia|]. exact (IH r eq_refl).
Qed.

(*@doc C98: if the file is one dash, the binary is what is typed, up to the end of the input;
then the simulator starts and ends at once with an error message and status 0.
@*)
Lemma C98_stdin_proof : forall ev t fs argv lines it level d, module_tree t -> command_line it argv -> level_asked (Some "warning") it = Some level ->
  slots it = [Some "-"] -> typed_bytes lines = Some d ->
  exists s, sim_start t d = (s, Done tt) /\ main ev t fs argv lines = Ran (fst (print "Error: invalid argument" s)) (Exit 0).
Proof.
  intros ev t fs argv lines it level d M CL LV S T. destruct (program_eq ev t d lines (typed_ok lines d T) M) as (s & E & _). exists s. split; [exact E|].
  rewrite (main_args ev t fs argv lines level (Some FromStdin)).
  - rewrite T. unfold sim_start in E. unfold ran, tool_run. destruct (create_sim d) as [c|x]; [|discriminate E]. unfold sbind. rewrite E. reflexivity.
  - apply C98_arguments_proof. exists it. split; [exact CL|]. split; [now rewrite LV|]. right. left. auto.
Qed.
(*@ex
Example C98_stdin_ex : typed_bytes [Line "ab"; Line ""] = Some [97; 98; 10; 10] /\ command_line [Binary "-"] ["-"].
Proof. split; [reflexivity|]. apply cl_file; [right; now left|constructor]. Qed.
@*)

Lemma level_none : forall it d argv, command_line it argv -> level_asked (Some d) it = None -> exists w, In w argv /\ joined "--" w.
Proof.
  intros it d argv CL. revert d. induction CL as [| |n|n F|n it argv F CL IH|v a it argv V A CL IH|v w it argv V J CL IH|w it argv J CL IH]; intros dl E; try discriminate E.
  - destruct (IH dl E) as (w & I & J). exists w. split; [now right|exact J].
  - destruct (IH v E) as (w & I & J). exists w. split; [right; now right|exact J].
  - destruct (IH v E) as (w' & I & J'). exists w'. split; [now right|exact J'].
  - exists w. split; [now left|exact J].
Qed.

(*@doc C98: the program shows the help exactly if an option asks for it and nothing before it
ends the program; likewise the version; and it reports a misuse exactly if it does neither
of them, nor accepts the arguments, nor stumbles over them (C98_traceback_refuted).
@*)
Lemma C98_outcome_proof : forall ev t fs argv lines,
  let r := main ev t fs argv lines in
  (r = Helped <-> for_help fs argv) /\
  (r = Versioned <-> for_version fs argv) /\
  (r = Misused <-> ~ for_help fs argv /\ ~ for_version fs argv /\ ~ accepted fs argv /\ ~ fatal fs argv).
Proof.
  intros ev t fs argv lines r. subst r.
  assert (HH : get_args fs argv = PHelp <-> for_help fs argv) by exact (get_stops fs argv PHelp eq_refl).
  assert (HV : get_args fs argv = PVersion <-> for_version fs argv) by exact (get_stops fs argv PVersion eq_refl).
  assert (HC := get_crash fs argv IndexError).
  assert (HA : (exists l f, get_args fs argv = PArgs l f) <-> accepted fs argv).
  { split.
    - intros (l & f & E). apply C98_arguments_proof in E. destruct E as (it & CL & _ & O). now exists it, f.
    - intros (it & f & CL & O). exists (level_asked (Some "warning") it), f. apply C98_arguments_proof. now exists it. }
  unfold main. destruct (get_args fs argv) as [level file| | | |x] eqn:E.
  - assert (A : accepted fs argv) by (apply HA; now exists level, file).
    assert (NH : ~ for_help fs argv) by (intro X; apply HH in X; discriminate). assert (NV : ~ for_version fs argv) by (intro X; apply HV in X; discriminate).
    assert (R : forall k d, exists s z, match level with Some _ => let '(s, r) := tool_run k t d in Ran s r | None => Ran (mksim cpu_new t [] false) (Uncaught (Raised TypeError)) end = Ran s z).
    { intros k d. destruct level; [destruct (tool_run k t d)|]; eexists; eexists; reflexivity. }
    destruct file as [[d|]|].
    + destruct (R (console_py ev "" lines) d) as (s & z & ->). split; [split; [discriminate|tauto]|]. split; split; try discriminate; tauto.
    + destruct (typed_bytes lines) as [d|]; [destruct (R (sfail (Raised ValueError)) d) as (s & z & ->)|]; (split; [split; [discriminate|tauto]|]); split; split; try discriminate; tauto.
    + destruct (R (console_py ev "" lines) []) as (s & z & ->). split; [split; [discriminate|tauto]|]. split; split; try discriminate; tauto.
  - assert (H : for_help fs argv) by now apply HH. assert (NV : ~ for_version fs argv) by (intro X; apply HV in X; discriminate).
    split; [split; [auto|reflexivity]|]. split; split; try discriminate; tauto.
  - assert (V : for_version fs argv) by now apply HV. assert (NH : ~ for_help fs argv) by (intro X; apply HH in X; discriminate).
    split; [split; [discriminate|tauto]|]. split; split; try discriminate; try tauto.
  - assert (NH : ~ for_help fs argv) by (intro X; apply HH in X; discriminate). assert (NV : ~ for_version fs argv) by (intro X; apply HV in X; discriminate).
    assert (NC : ~ fatal fs argv) by (intro X; pose proof (proj2 HC (conj eq_refl X)); discriminate).
    assert (NA : ~ accepted fs argv) by (intro X; apply HA in X; destruct X as (l & f & X); discriminate).
    split; [split; [discriminate|tauto]|]. split; split; try discriminate; try tauto.
  - assert (NH : ~ for_help fs argv) by (intro X; apply HH in X; discriminate). assert (NV : ~ for_version fs argv) by (intro X; apply HV in X; discriminate).
    assert (FA : fatal fs argv) by (apply get_crash in E; exact (proj2 E)).
    split; [split; [discriminate|tauto]|]. split; split; try discriminate; tauto.
Qed.
(*@ex
Example C98_outcome_ex : for_help ex_files ["a.bin"; "b.bin"; "-x"; "-hd"; "loud"] /\ for_version ex_files ["a.bin"; "--ver"; "-d"] /\
  accepted ex_files ["a.bin"] /\ fatal ex_files ["-dinfo"; "-h="] /\
  map (get_args ex_files) [["a.bin"; "b.bin"; "-x"; "-hd"; "loud"]; ["a.bin"; "--ver"; "-d"]; ["-dinfo"; "-h="]; ["-d"; "loud"]; ["b.bin"; "-h"]; ["-hx"]; ["-hd"]; ["--help=1"]; ["-x"]; ["a.bin"; "b.bin"]; ["-h"; "--=1"]] =
  [PHelp; PVersion; PCrash IndexError; PUsage; PUsage; PUsage; PUsage; PUsage; PUsage; PUsage; PUsage].
Proof.
  assert (U : forall argv, forallb (fun w => negb (String.eqb (substring 0 3 w) "--=")) argv = true -> unambiguous argv).
  { intros argv H a w b -> _ [r ->]. rewrite forallb_app in H. apply andb_prop in H. destruct H as [_ H]. destruct r; discriminate H. }
  assert (F : forall w, String.eqb (substring 0 1 w) "-" = false -> file_word w).
  { intros w H. left. intros [r ->]. destruct r; discriminate H. }
  split; [|split; [|split; [|split; [|vm_compute; reflexivity]]]].
  - split; [apply U; reflexivity|]. exists ["a.bin"; "b.bin"; "-x"], "-hd", ["loud"]. split; [reflexivity|]. split.
    + apply le_file; [apply F; reflexivity|right; discriminate|]. apply le_more; [apply F; reflexivity|]. apply le_unknown; [|constructor].
      split; [now exists "x"|]. split; [discriminate|]. split.
      { intros [(a & b & e & A & B & X & [[E N]|[E N]])|I]; [| |vm_compute in I; intuition discriminate].
        - destruct a as [|c a]; [now destruct N|]. injection E as <- _. specialize (A "x"%char (or_introl eq_refl)). vm_compute in A. intuition discriminate.
        - destruct a as [|c a]; [discriminate E|]. injection E as <- _. specialize (A "x"%char (or_introl eq_refl)). vm_compute in A. intuition discriminate. }
      split; [intros [r X]; discriminate|]. split; [intros [r X]; discriminate|]. split; [discriminate|]. split; [intros [r X]; discriminate|].
      intros a I. cbn [In names_level names_help names_version app] in I. repeat (destruct I as [<-|I]; [split; [discriminate|intros [r X]; discriminate]|]). destruct I.
    + right. exists "d", 0%nat. split; [left; split; [reflexivity|intros [r X]; discriminate]|]. right. exists []. split; [reflexivity|]. right.
      exists "loud", []. split; [reflexivity|apply F; reflexivity].
  - split; [apply U; reflexivity|]. exists ["a.bin"], "--ver", ["-d"]. split; [reflexivity|]. split; [|vm_compute; tauto].
    apply le_file; [apply F; reflexivity|right; discriminate|constructor].
  - exists [Binary "a.bin"]. eexists. split; [apply cl_file; [apply F; reflexivity|constructor]|]. right. right. exists "a.bin". eexists. split; [reflexivity|]. split; [discriminate|]. split; reflexivity.
  - split; [apply U; reflexivity|]. exists ["-dinfo"], []. split; [reflexivity|]. apply (le_joined _ _ "info"); [left; vm_compute; tauto| |constructor].
    left. split; [reflexivity|]. split; [discriminate|]. intros [r X]. discriminate.
Qed.
@*)

(*@doc C98: the program ends in an orderly way for all other arguments and all input: it runs
to status 0 or 2, or to the status of a SystemExit that an expression raised, unless it is interrupted while it reads its standard input.  Missing: two
words end it with a traceback (C98_traceback_refuted).
@*)
Lemma C98_ends_partial_proof : forall ev t fs argv lines, module_tree t -> (forall n d, fs n = Some d -> bytes d) ->
  match main ev t fs argv lines with
  | Ran s (Exit z) => z = 0 \/ z = 2 \/ exists cmd, entered lines cmd /\ python ev cmd (EvExit z)
  | Ran s (Uncaught e) => e = Raised IndexError /\ fatal fs argv \/ e = Raised TypeError /\ exists w, In w argv /\ joined "--" w
  | Interrupted => In CtrlC lines /\ In "-" argv
  | Helped | Versioned | Misused => True
  end.
Proof.
  intros ev t fs argv lines M B. destruct (get_args fs argv) as [[level|] file| | | |x] eqn:E.
  - rewrite (main_args ev t fs argv lines level file E). assert (PR : forall d, bytes d -> exists z, snd (program ev t d lines) = Exit z /\ (z = 0 \/ z = 2 \/ exists cmd, entered lines cmd /\ python ev cmd (EvExit z))).
    { intros d D. pose proof (C81_status_proof ev t d lines D M) as S. cbv zeta in S. destruct (console_py ev "" lines (fst (sim_start t d))) as [s' r].
      destruct S as [[-> _]|[[-> _]|(code & cmd & -> & _ & EN & PY)]]; eexists; (split; [reflexivity|]); [now left|right; now left|]. right. right. exists cmd. now split. }
    apply C98_arguments_proof in E. destruct E as (it & CL & _ & O). destruct file as [[d|]|].
    + unfold ran. destruct O as [[_ O]|[[_ O]|(n & d' & _ & _ & F & O)]]; try discriminate O. injection O as ->. destruct (PR d' (B n d' F)) as (z & X & Z). rewrite X. exact Z.
    + destruct (typed_bytes lines) as [d|] eqn:T.
      * destruct (program_eq ev t d lines (typed_ok lines d T) M) as (s & S & _). unfold sim_start in S. unfold ran, tool_run. destruct (create_sim d) as [c|x]; [|discriminate S].
        unfold sbind. rewrite S. left. reflexivity.
      * split.
        -- clear - T. induction lines as [|[s|] lines IH]; [discriminate| |now left]. right. apply IH. cbn [typed_bytes] in T. destruct (typed_bytes lines); [discriminate|reflexivity].
        -- destruct O as [[_ O]|[[O _]|(n & d' & _ & _ & F & O)]]; try discriminate O. clear - CL O. induction CL; try discriminate O; cbn [slots flat_map app] in O.
           ++ injection O as ->. right. now left.
           ++ injection O as ->. now left.
           ++ injection O as ->. now left.
           ++ right. right. now apply IHCL.
           ++ right. now apply IHCL.
           ++ right. now apply IHCL.
    + unfold ran. destruct (PR [] (Forall_nil _)) as (z & X & Z). rewrite X. exact Z.
  - apply C98_arguments_proof in E as E'. destruct E' as (it & CL & LV & O). symmetry in LV. pose proof (level_none it "warning" argv CL LV) as W.
    unfold main. rewrite E. destruct file as [[d|]|]; [right; now split| |right; now split]. destruct (typed_bytes lines) as [d|] eqn:T; [right; now split|]. split.
    + clear - T. induction lines as [|[s|] lines IH]; [discriminate| |now left]. right. apply IH. cbn [typed_bytes] in T. destruct (typed_bytes lines); [discriminate|reflexivity].
    + destruct O as [[_ O]|[[O _]|(n & d' & _ & _ & F & O)]]; try discriminate O. clear - CL O. induction CL; try discriminate O; cbn [slots flat_map app] in O.
      ++ injection O as ->. right. now left.
      ++ injection O as ->. now left.
      ++ injection O as ->. now left.
      ++ right. right. now apply IHCL.
      ++ right. now apply IHCL.
      ++ right. now apply IHCL.
  - unfold main. rewrite E. exact I.
  - unfold main. rewrite E. exact I.
  - unfold main. rewrite E. exact I.
  - unfold main. rewrite E. apply get_crash in E. left. destruct E as [-> E]. now split.
Qed.
(*@ex
Example C98_ends_partial_ex : forall n d, ex_files n = Some d -> bytes d.
Proof. intros n d H. unfold ex_files in H. destruct (String.eqb n "a.bin"); [|discriminate]. injection H as <-. repeat (constructor; [lia|]). constructor. Qed.
@*)

(*@doc C98 fails for a help option with an equals sign and nothing after it, and for a log
level of two dashes: the program ends with the traceback of an exception.
@*)
Lemma C98_traceback_refuted_proof : exists a b, forall ev t fs lines,
  main ev t fs a lines = Ran (mksim cpu_new t [] false) (Uncaught (Raised IndexError)) /\
  main ev t fs b lines = Ran (mksim cpu_new t [] false) (Uncaught (Raised TypeError)).
Proof. exists ["-h="], ["-d--"]. intros ev t fs lines. split; reflexivity. Qed.
