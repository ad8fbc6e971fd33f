(** * Stepping through the execution model *)
From Coq Require Import Lia ZifyBool.
From Verif Require Import BitstringModel SpecBits BitFacts BitOps BitMisc BitThms HelpersModel SpecArm HelpFacts CpuModel SpecCpu
  CpuFacts CpuThms InsnModel SpecIsa ExecModel SpecExec.
Local Open Scope bool_scope.
Local Open Scope Z_scope.

(** ** The monad *)
Lemma bind_ok : forall A B (m : comp A) (f : A -> comp B) s s' a, m s = (s', Ok a) -> mbind m f s = f a s'.
Proof. intros. unfold mbind. rewrite H. reflexivity. Qed.
Lemma bind_err : forall A B (m : comp A) (f : A -> comp B) s s' e, m s = (s', Err e) -> mbind m f s = (s', Err e).
Proof. intros. unfold mbind. rewrite H. reflexivity. Qed.
Lemma bind_assoc : forall A B C (m : comp A) (f : A -> comp B) (g : B -> comp C) s,
  mbind (mbind m f) g s = mbind m (fun a => mbind (f a) g) s.
Proof. intros. unfold mbind. destruct (m s) as [s' [a|e]]; reflexivity. Qed.
Lemma bind_ret : forall A B (a : A) (f : A -> comp B) s, mbind (ret a) f s = f a s.
Proof. reflexivity. Qed.
Lemma bind_lift : forall A B (r : res A) a (f : A -> comp B) s, r = Ok a -> mbind (lift r) f s = f a s.
Proof. intros. subst. reflexivity. Qed.
Lemma bind_lift_err : forall A B (r : res A) e (f : A -> comp B) s, r = Err e -> mbind (lift r) f s = (s, Err e).
Proof. intros. subst. reflexivity. Qed.
Lemma bind_getc : forall A B (g : cpu -> res A) a (f : A -> comp B) c i, g c = Ok a ->
  mbind (getc g) f (mkst c i) = f a (mkst c i).
Proof. intros. unfold mbind, getc. cbn [s_cpu]. rewrite H. reflexivity. Qed.
Lemma bind_getc_err : forall A B (g : cpu -> res A) e (f : A -> comp B) c i, g c = Err e ->
  mbind (getc g) f (mkst c i) = (mkst c i, Err e).
Proof. intros. unfold mbind, getc. cbn [s_cpu]. rewrite H. reflexivity. Qed.
Lemma bind_setc : forall B g c' (f : unit -> comp B) c i, g c = Ok c' ->
  mbind (setc g) f (mkst c i) = f tt (mkst c' i).
Proof. intros. unfold mbind, setc. cbn [s_cpu s_self]. rewrite H. reflexivity. Qed.
Lemma bind_attr : forall A B (g : attrs -> option A) a (f : A -> comp B) c i, g (i_attrs i) = Some a ->
  mbind (attr g) f (mkst c i) = f a (mkst c i).
Proof. intros. unfold mbind, attr. cbn [s_self]. rewrite H. reflexivity. Qed.
Lemma bind_hasattr : forall A B (g : attrs -> option A) b (f : bool -> comp B) c i,
  (match g (i_attrs i) with Some _ => true | None => false end) = b ->
  mbind (hasattr g) f (mkst c i) = f b (mkst c i).
Proof. intros. unfold mbind, hasattr. cbn [s_self]. rewrite H. reflexivity. Qed.
Lemma bind_setattr : forall B g (f : unit -> comp B) c i,
  mbind (setattr g) f (mkst c i) = f tt (mkst c (set_attrs g i)).
Proof. reflexivity. Qed.

(** ** Registers *)
Definition W (c : cpu) (k v : Z) : cpu := mock_write_register c (Some k) v.

Lemma reg_W : forall c k v j, reg (W c k v) j = set (reg c) k v j.
Proof. intros. apply mock_write_reg. Qed.
Lemma mem_W : forall c k v, c_mem (W c k v) = c_mem c.
Proof. intros. apply mock_write_mem. Qed.
Lemma ok_W : forall c k v, regs_ok c -> word v -> regs_ok (W c k v).
Proof. intros. apply regs_ok_write; assumption. Qed.
Lemma word_reg : forall c k, regs_ok c -> core k -> word (reg c k).
Proof. intros c k H K. apply (regs_ok_reg c k H K). Qed.
Lemma core_gpr : forall k, gpr k -> core k.
Proof. unfold gpr, core. lia. Qed.
Lemma word_gpr : forall c k, regs_ok c -> gpr k -> word (reg c k).
Proof. intros. apply word_reg; [assumption|apply core_gpr; assumption]. Qed.
Lemma word_wrap : forall v, word (wrap v).
Proof. intros. apply Z.mod_pos_bound. reflexivity. Qed.
Lemma wrap_small : forall v, word v -> wrap v = v.
Proof. intros. apply Z.mod_small. assumption. Qed.
Lemma bv_word : forall v, word v -> bv (bits 32 v) = v.
Proof. intros. apply wrap_small. assumption. Qed.
Lemma bv_wrap : forall v, bv (bits 32 v) = wrap v.
Proof. reflexivity. Qed.
Lemma wf32 : forall v, wf (bits 32 v).
Proof. intros. apply wf_bits. discriminate. Qed.

Lemma rget_run : forall c i k, regs_ok c -> gpr k -> rget k (mkst c i) = (mkst c i, Ok (bits 32 (reg c k))).
Proof. intros. unfold rget, getc. cbn [s_cpu]. rewrite r_get_ok by assumption. reflexivity. Qed.
Lemma rset_run : forall c i k v, gpr k -> rset k v (mkst c i) = (mkst (W c k (bv v)) i, Ok tt).
Proof. intros c i k v [_ K]. unfold rset, setc. cbn [s_cpu s_self]. rewrite r_set_ok by assumption. reflexivity. Qed.
Lemma bind_rget : forall B (f : bs -> comp B) c i k, regs_ok c -> gpr k ->
  mbind (rget k) f (mkst c i) = f (bits 32 (reg c k)) (mkst c i).
Proof. intros. apply bind_ok. apply rget_run; assumption. Qed.
Lemma bind_rset : forall B (f : unit -> comp B) c i k v, gpr k ->
  mbind (rset k v) f (mkst c i) = f tt (mkst (W c k (bv v)) i).
Proof. intros. apply bind_ok. apply rset_run; assumption. Qed.
Lemma bind_fget : forall B (f : bs -> comp B) c i fl, regs_ok c ->
  mbind (fget fl) f (mkst c i) = f (bitv (Z.testbit (reg c 16) (flag_bit fl))) (mkst c i).
Proof. intros. apply bind_getc. apply apsr_get_ok. assumption. Qed.
Lemma fset_run : forall c i fl b, regs_ok c ->
  fset fl (bitv b) (mkst c i) = (mkst (W c 16 (put_bit (reg c 16) (flag_bit fl) b)) i, Ok tt).
Proof. intros. unfold fset, setc. cbn [s_cpu s_self]. rewrite (apsr_set_ok c fl _ b H (init1_bitv b)). reflexivity. Qed.
Lemma bind_fset : forall B (f : unit -> comp B) c i fl b, regs_ok c ->
  mbind (fset fl (bitv b)) f (mkst c i) = f tt (mkst (W c 16 (put_bit (reg c 16) (flag_bit fl) b)) i).
Proof. intros. apply bind_ok. apply fset_run. assumption. Qed.
Lemma ok_flag : forall c fl b, regs_ok c -> regs_ok (W c 16 (put_bit (reg c 16) (flag_bit fl) b)).
Proof.
  intros c fl b H. apply ok_W; [assumption|]. pose proof (flag_bit_range fl).
  apply put_bit_range; [lia|]. apply word_reg; [assumption|unfold core; lia].
Qed.
Lemma get_pc_run : forall c, regs_ok c -> get_pc c = Ok (bits 32 (reg c 15)).
Proof. exact read_pc. Qed.
Lemma set_pc_W : forall c v, set_pc c v = W c 15 (num_val v).
Proof. reflexivity. Qed.
Lemma set_lr_W : forall c v, set_lr c v = W c 14 (num_val v).
Proof. reflexivity. Qed.
Lemma set_sp_W : forall c v, set_sp c v = W c 13 (num_val v).
Proof. reflexivity. Qed.
Lemma core_of : forall k, -4 <= k <= 18 -> core k.
Proof. unfold core. lia. Qed.
Lemma get_sp_run : forall c, regs_ok c -> get_sp c = Ok (bits 32 (reg c 13)).
Proof. intros. apply (read_index c _ 13); [reflexivity|assumption|unfold core; lia]. Qed.

Lemma add_int : forall a z, word a -> bs_add (bits 32 a) (VInt z) = Ok (bits 32 (a + z)).
Proof.
  intros a z H. destruct (C02_arith_proof (bits 32 a) (VInt z) z (wf32 a) (means_int z)) as [E _].
  rewrite E, bv_word by assumption. reflexivity.
Qed.
Lemma sub_int : forall a z, word a -> bs_sub (bits 32 a) (VInt z) = Ok (bits 32 (a - z)).
Proof.
  intros a z H. destruct (C02_arith_proof (bits 32 a) (VInt z) z (wf32 a) (means_int z)) as [_ [E _]].
  rewrite E, bv_word by assumption. reflexivity.
Qed.
Lemma add_bits : forall a b, word a -> word b -> bs_add (bits 32 a) (VBits (bits 32 b)) = Ok (bits 32 (a + b)).
Proof.
  intros a b H H'. destruct (C02_arith_proof (bits 32 a) (VBits (bits 32 b)) _ (wf32 a) (means_bits _ (wf32 b))) as [E _].
  rewrite E, !bv_word by assumption. reflexivity.
Qed.
Lemma sub_bits : forall a b, word a -> word b -> bs_sub (bits 32 a) (VBits (bits 32 b)) = Ok (bits 32 (a - b)).
Proof.
  intros a b H H'. destruct (C02_arith_proof (bits 32 a) (VBits (bits 32 b)) _ (wf32 a) (means_bits _ (wf32 b))) as [_ [E _]].
  rewrite E, !bv_word by assumption. reflexivity.
Qed.
Lemma bits_wrap : forall v, bits 32 (wrap v) = bits 32 v.
Proof. intros. apply bits_mod_eq. discriminate. Qed.

Lemma pc_add_run : forall c i n, regs_ok c ->
  pc_add n (mkst c i) = (mkst (W c 15 (wrap (reg c 15 + n))) i, Ok tt).
Proof.
  intros c i n H. unfold pc_add. rewrite (bind_getc _ _ _ _ _ _ _ (get_pc_run c H)).
  rewrite (bind_lift _ _ _ _ _ _ (add_int _ n (word_gpr c 15 H ltac:(unfold gpr; lia)))). reflexivity.
Qed.
Lemma pc_next_run : forall c i, regs_ok c ->
  pc_next (mkst c i) = (mkst (W c 15 (wrap (reg c 15 + i_size i))) i, Ok tt).
Proof. intros. unfold pc_next, mbind at 1, size. cbn [s_self]. apply pc_add_run. assumption. Qed.
Lemma pc4_run : forall c, regs_ok c -> pc_for_instr c = Ok (bits 32 (reg c 15 + 4)).
Proof.
  intros c H. unfold pc_for_instr. rewrite (read_pc c H). cbn [bind].
  apply add_int. apply word_gpr; [assumption|unfold gpr; lia].
Qed.

(** ** Flags *)
Lemma bit31 : forall v, word v -> bs_getitem (bits 32 v) (KInt 31) = Ok (bitv (negative v)).
Proof.
  intros v H. destruct (C04_index_proof (bits 32 v) 31 (wf32 v)) as [E _]. rewrite E by lia.
  unfold bit. rewrite bv_word by assumption. change 31 with (32 - 1). rewrite (testbit_top v 32) by (unfold word in H; lia).
  unfold negative. change (32 - 1) with 31. destruct (2 ^ 31 <=? v); reflexivity.
Qed.
Lemma zero_bit : forall v, word v -> bs_is_zero_bit (bits 32 v) = Ok (bitv (v =? 0)).
Proof.
  intros v H. destruct (C13_queries_proof (bits 32 v) (wf32 v)) as (_ & _ & _ & E & _). rewrite E.
  rewrite bv_word by assumption. destruct (v =? 0); reflexivity.
Qed.

(** Two states with the same registers and memory. *)
Definition agree (c : cpu) (f : Z -> Z) : Prop := forall k, core k -> reg c k = f k.

Lemma set_ext : forall f g k v, (forall j, core j -> f j = g j) -> forall j, core j -> set f k v j = set g k v j.
Proof. intros f g k v H j J. unfold set. destruct (written k j); [reflexivity|apply H; assumption]. Qed.
Lemma set_set_16 : forall f a b j, set (set f 16 a) 16 b j = set f 16 b j.
Proof.
  intros. unfold set. change (kept 16 a) with a. change (kept 16 b) with b. unfold written. cbn [Z.eqb andb].
  rewrite !Bool.orb_false_r. destruct (j =? 16); reflexivity.
Qed.
Lemma set_at_16 : forall f v, set f 16 v 16 = v.
Proof. reflexivity. Qed.

(** What the flag updates leave behind. *)
Definition WF (c : cpu) (n z : bool) (cf vf : option bool) : cpu :=
  let c1 := W c 16 (put_bit (reg c 16) 31 n) in
  let c2 := W c1 16 (put_bit (reg c1 16) 30 z) in
  let c3 := match cf with Some b => W c2 16 (put_bit (reg c2 16) 29 b) | None => c2 end in
  match vf with Some b => W c3 16 (put_bit (reg c3 16) 28 b) | None => c3 end.

Lemma WF_ok : forall c n z cf vf, regs_ok c -> regs_ok (WF c n z cf vf).
Proof.
  intros c n z cf vf H. unfold WF. cbv zeta.
  pose proof (ok_flag c FN n H) as H1. cbn [flag_bit] in H1.
  pose proof (ok_flag _ FZ z H1) as H2. cbn [flag_bit] in H2.
  destruct cf as [b|].
  - pose proof (ok_flag _ FC b H2) as H3. cbn [flag_bit] in H3.
    destruct vf as [b'|]; [exact (ok_flag _ FV b' H3)|exact H3].
  - destruct vf as [b'|]; [exact (ok_flag _ FV b' H2)|exact H2].
Qed.
Lemma WF_mem : forall c n z cf vf, c_mem (WF c n z cf vf) = c_mem c.
Proof. intros. unfold WF. cbv zeta. destruct cf, vf; rewrite ?mem_W; reflexivity. Qed.
Lemma WF_reg : forall c n z cf vf j, reg (WF c n z cf vf) j = set_nzcv (reg c) (Some n) (Some z) cf vf j.
Proof.
  intros. unfold WF, set_nzcv, put_flags, opt_bit. cbv zeta.
  assert (T : forall c v, reg (W c 16 v) 16 = v) by (intros; rewrite reg_W; apply set_at_16).
  destruct (written 16 j) eqn:E; destruct cf, vf; rewrite ?T;
    repeat (rewrite reg_W; unfold set at 1; rewrite E); unfold set; rewrite E; reflexivity.
Qed.

Lemma flags_run : forall c i sf r cf vf, regs_ok c -> word r -> a_setflags (i_attrs i) = Some sf ->
  set_flags (bits 32 r) (option_map bitv cf) (option_map bitv vf) (mkst c i) =
  (mkst (if sets sf then WF c (negative r) (r =? 0) cf vf else c) i, Ok tt).
Proof.
  intros c i sf r cf vf H R A. unfold set_flags. rewrite (bind_attr _ _ _ _ _ _ _ A).
  change (match sf with Always => true | Never => false | NotInITBlock => negb in_it_block end) with
    (match sf with Always => true | Never => false | NotInITBlock => true end).
  replace (match sf with Always => true | Never => false | NotInITBlock => true end) with (sets sf) by (destruct sf; reflexivity).
  destruct (sets sf); [|reflexivity].
  rewrite (bind_lift _ _ _ _ _ _ (bit31 r R)). rewrite bind_fset by assumption.
  rewrite (bind_lift _ _ _ _ _ _ (zero_bit r R)).
  pose proof (ok_flag c FN (negative r) H) as H1. rewrite bind_fset by assumption.
  pose proof (ok_flag _ FZ (r =? 0) H1) as H2. cbn [flag_bit] in *.
  destruct cf as [b|]; cbn [option_map].
  - rewrite bind_fset by assumption. pose proof (ok_flag _ FC b H2) as H3. cbn [flag_bit] in *.
    destruct vf as [b'|]; cbn [option_map]; [rewrite fset_run by assumption|]; reflexivity.
  - rewrite bind_ret.
    destruct vf as [b'|]; cbn [option_map]; [rewrite fset_run by assumption|]; reflexivity.
Qed.
Lemma flags_ok : forall c sf r cf vf, regs_ok c -> regs_ok (if sets sf then WF c (negative r) (r =? 0) cf vf else c).
Proof. intros. destruct (sets sf); [apply WF_ok|]; assumption. Qed.

(** ** The end of most instructions: result, flags, pc *)
Lemma finish_run : forall c i d r sf cf vf, regs_ok c -> gpr d -> word r -> a_setflags (i_attrs i) = Some sf ->
  exists c',
  mbind (rset d (bits 32 r)) (fun _ => mbind (set_flags (bits 32 r) (option_map bitv cf) (option_map bitv vf)) (fun _ => pc_next)) (mkst c i)
  = (mkst c' i, Ok tt) /\ c_mem c' = c_mem c /\ regs_ok c' /\
  forall k, core k -> reg c' k = advance (set_result sf (set (reg c) d r) r cf vf) (i_size i) k.
Proof.
  intros c i d r sf cf vf H D R A. eexists. split.
  - rewrite bind_rset by assumption. rewrite bv_word by assumption.
    pose proof (ok_W c d r H R) as H1.
    erewrite bind_ok by (apply flags_run with (sf := sf); assumption).
    apply pc_next_run. apply flags_ok. assumption.
  - split; [|split].
    + rewrite mem_W. destruct (sets sf); rewrite ?WF_mem, ?mem_W; reflexivity.
    + apply ok_W; [apply flags_ok; apply ok_W; assumption|apply word_wrap].
    + intros k K. rewrite reg_W. unfold advance.
      assert (E : forall j, core j -> reg (if sets sf then WF (W c d r) (negative r) (r =? 0) cf vf else W c d r) j =
        set_result sf (set (reg c) d r) r cf vf j).
      { intros j J. unfold set_result. destruct (sets sf); [rewrite WF_reg|apply reg_W].
        unfold set_nzcv. rewrite reg_W. apply set_ext; [|assumption]. intros. apply reg_W. }
      rewrite (E 15) by (unfold core; lia). apply set_ext; assumption.
Qed.
Lemma finish_plain_run : forall c i d r, regs_ok c -> gpr d -> word r ->
  exists c', mbind (rset d (bits 32 r)) (fun _ => pc_next) (mkst c i) = (mkst c' i, Ok tt) /\
  c_mem c' = c_mem c /\ regs_ok c' /\ forall k, core k -> reg c' k = advance (set (reg c) d r) (i_size i) k.
Proof.
  intros c i d r H D R. eexists. split.
  - rewrite bind_rset by assumption. rewrite bv_word by assumption. apply pc_next_run. apply ok_W; assumption.
  - split; [rewrite !mem_W; reflexivity|]. split; [apply ok_W; [apply ok_W; assumption|apply word_wrap]|].
    intros k K. rewrite reg_W. unfold advance. rewrite reg_W. apply set_ext; [|assumption]. intros. apply reg_W.
Qed.

(** Tactics. *)
Ltac at_attr := erewrite bind_attr by (match goal with H : i_attrs ?i = _ |- context [i_attrs ?i] => rewrite H; reflexivity end).
Ltac at_has :=
  first [ rewrite (bind_hasattr _ _ _ true) by (match goal with H : i_attrs ?i = _ |- context [i_attrs ?i] => rewrite H; reflexivity end)
        | rewrite (bind_hasattr _ _ _ false) by (match goal with H : i_attrs ?i = _ |- context [i_attrs ?i] => rewrite H; reflexivity end) ];
  cbv beta iota.
Ltac at_get := rewrite bind_rget by assumption.

Lemma ex_state_ok : cpu_ok ex_state.
Proof.
  destruct (C36_invariant_proof cpu_new ex_ops (proj1 C36_fresh_proof) (proj1 (proj2 (proj2 C36_fresh_proof)))) as [A B].
  - unfold ex_ops. repeat apply Forall_cons; try apply Forall_nil; cbn [cop_ok num_val]; exact Logic.I || lia.
  - split; [exact A|]. split; [|exact B]. vm_compute. repeat split; reflexivity.
Qed.
