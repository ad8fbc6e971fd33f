(** * Each decoder of the built-in table agrees with its row of the encoding table. *)
From Coq Require Import ZArith List Lia Bool ZifyBool String.
From Verif Require Import BitFacts HelpFacts TableModel TreeFacts SpecArm SpecBits SpecDecoder SpecIsa IsaFacts IsaOps.
Local Open Scope Z_scope.

Definition table_decoders := match DECODERS with Ok l => l | Err _ => [] end.
Definition sorted16 := Eval vm_compute in sortw weight (registered16 table_decoders).
Definition sorted32 := Eval vm_compute in sortw weight (registered32 table_decoders).

Ltac open_handler := cbv [h_adc h_add_imm_t1 h_add_imm_t2 h_add_reg_t1 h_add_reg_t2 h_add_sp_plus_imm_t1 h_add_sp_plus_reg_t1 h_add_sp_plus_reg_t2 h_add_sp_plus_imm_t2 h_shift_imm_t1 h_rsb h_rsb_w h_mul_t1 h_mul_t2 h_adr_t1 h_adr_t2 h_extend h_extend2 h_rev h_rev_w h_mov_reg h_movs_reg h_mov_reg_t3 h_mov1 h_mov2 h_movw h_mvn h_mvnw h_cmp1 h_cmp3 h_cmp4 h_cmp2 h_tst h_tst_w h_b_t1 h_b_t2 h_bl_t1 h_blx_t1 h_bx_t1 h_ldr_str_reg h_ldr_str_reg_t2 h_ldr_str_imm h_ldr_literal h_ldr_literal_w h_ldr_str_imm_t2 h_push_t1 h_push_t2 h_push_t3 h_pop_t1 h_pop_t2 h_pop_t3 h_stm_ldm_t1 h_stm_t2 h_ldm_t2 h_cps h_bkpt h_mrs h_msr h_nop h_barrier h_udf_t1 h_udf_t2 ].

Ltac reg_fix :=
  match goal with
  | |- context [reglist ?p ?l ?r] =>
    match goal with |- context [bits 16 ?e] =>
      lazymatch e with reglist _ _ _ => fail | _ => replace e with (reglist p l r) by (unfold reglist; lia) end end
  | |- context [bits 16 (0 * 256 + ?r)] => replace (0 * 256 + r) with r by lia
  | |- context [bs_bit_count (bits 16 (reglist ?p ?l ?r))] =>
    rewrite (count_b (reglist p l r)) by (unfold reglist; lia)
  | |- context [reg_bit_is (bits 16 (reglist ?p ?l ?r)) ?n "1"] =>
    rewrite (reg_bit_1 (reglist p l r) n) by (unfold reglist; lia)
  end; cbn [bind].
Ltac bl_prep :=
  match goal with |- context [bl_offset] => idtac end;
  unfold bl_offset; cbv zeta;
  repeat match goal with
  | |- context [if ?b then 1 else 0] =>
    let y := fresh "y" in let H := fresh "Y" in
    assert (H : 0 <= (if b then 1 else 0) < 2) by (destruct b; lia);
    set (y := if b then 1 else 0) in *; clearbody y
  end;
  repeat step;
  match goal with
  | |- context [bs_sign_extend (bits 25 ?e) 32] =>
    match goal with |- context [LabelOp (twos 25 ?v)] => replace e with v by lia end
  end.
Ltac label_step :=
  match goal with
  | |- context [bind (bs_sign_extend (bits ?k ?v) 32) (fun x => label_of_imm32 x ?i)] =>
    rewrite (label_b k v i); [|lia|in_range]
  end.
Ltac misc_step :=
  match goal with
  | |- context [attr (a_memsize ?x)] =>
    let v := eval cbv in (a_memsize x) in
    match v with Some ?n => change (attr (a_memsize x)) with (Ok n) end; cbn [bind Z.eqb Pos.eqb]
  | |- context [if negb (8 * ?r =? 0) then _ else _] => replace (8 * r =? 0) with (r =? 0) by lia; rewrite if_negb
  | |- context [if negb (snd (imm_shift ?t ?n) =? 0) then _ else _] => rewrite if_negb
  | |- context [ones_below 16 ?v <? 1] => rewrite (ones_zero v) by lia
  end.
Ltac norm := repeat first [step | reg_fix | misc_step]; try bl_prep; try label_step.
Ltac cases :=
  repeat match goal with
  | |- context [if ?b then _ else _] =>
    match b with
    | context [?x =? ?y] => destruct (x =? y) eqn:?
    | context [?x <? ?y] => destruct (x <? y) eqn:?
    | context [?x <=? ?y] => destruct (x <=? y) eqn:?
    | context [Z.testbit ?x ?y] => destruct (Z.testbit x y) eqn:?
    | context [special ?x] => destruct (special x) eqn:?
    | _ => is_var b; destruct b
    end; cbn [orb andb negb]
  end.
Ltac other_tac := unfold is_other, bad; cases; reflexivity.
Ltac raises_tac := let e := fresh "e" in let X := fresh "X" in intros e X; revert X; unfold bad; cases; intro X; try discriminate X; injection X as <-; discriminate.
Ltac finish_row :=
  try match goal with |- context [V (4096 * ?k + 2048 * ?j + (?i * 256 + ?l))] =>
    match goal with |- context [ImmOp ?e false] => replace e with (4096 * k + 2048 * j + (i * 256 + l)) by lia end end;
  try match goal with |- context [(?x * 8 + ?y) mod 8] => replace ((x * 8 + y) mod 8) with y by (apply (Z.mod_unique _ _ x); lia) end;
  first [reflexivity | cbn [decoded]; unfold bad, in_13_15; cases; reflexivity | idtac].
Ltac row_tac :=
  row_start;
  match goal with C : Z.land _ _ = _ |- _ =>
  split; [ open_decoder; open_handler; fields_of_spec; abstract_fields C; norm; finish_row
         | split; [other_tac | raises_tac] ] end.
Ltac head := match goal with |- Forall2 _ ?l _ => let l' := eval red in l in change l with l' end.

Lemma rows16 : Forall2 row_ok sorted16 isa16.
Proof. unfold sorted16, isa16. repeat (apply Forall2_cons; [row_tac|]). apply Forall2_nil. Qed.

Lemma rows32 : Forall2 row_ok sorted32 isa32.
Proof. unfold sorted32, isa32. repeat (apply Forall2_cons; [row_tac|]).  apply Forall2_nil. Qed.
