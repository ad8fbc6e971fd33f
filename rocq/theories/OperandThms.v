(** * Operands of any content: proofs *)
From Coq Require Import Lia.
From Verif Require Import InsnModel FormatModel FormatFacts FormatThms BitstringModel SpecBits SpecArm SpecIsa SpecFormat SpecExec SpecOperand.
Import ListNotations.
Local Open Scope string_scope.
Local Open Scope list_scope.
Local Open Scope Z_scope.
(*@imports
From Coq Require Import Lia.
From Verif Require Import InsnModel TableModel FormatModel BitstringModel SpecBits SpecArm SpecIsa SpecFormat SpecExec SpecOperand OperandThms.
Import ListNotations.
Local Open Scope string_scope.
Local Open Scope list_scope.
Local Open Scope Z_scope.
@*)

Lemma any_name : forall n, register_name n = match any_reg_name n with Some s => Ok s | None => Err KeyError end.
Proof.
  intros n. unfold register_name.
  assert (E : dict_get Z.eqb n CORE_REGISTER_NAMES = any_reg_name n); [|rewrite E; reflexivity].
  destruct (in_dec Z.eq_dec n (map fst CORE_REGISTER_NAMES)) as [I|N].
  - let l := eval vm_compute in (map fst CORE_REGISTER_NAMES) in change (map fst CORE_REGISTER_NAMES) with l in I. cbn [In] in I.
    repeat (destruct I as [<-|I]; [vm_compute; reflexivity|]). destruct I.
  - replace (dict_get Z.eqb n CORE_REGISTER_NAMES) with (@None string).
    + assert (K : forall l, forallb (fun k => existsb (Z.eqb k) (map fst CORE_REGISTER_NAMES)) l = true -> ~ In n l).
      { intros l F J. rewrite forallb_forall in F. specialize (F n J). apply existsb_exists in F as (x & X & E). apply Z.eqb_eq in E. subst x. exact (N X). }
      assert (FN : find (fun p : Z * string => fst p =? n) [(16, "xpsr"); (17, "msp"); (18, "psp"); (-1, "primask"); (-2, "basepri"); (-3, "faultmask"); (-4, "control"); (33, "fpscr")] = None).
      { pose proof (K [16; 17; 18; -1; -2; -3; -4; 33] ltac:(vm_compute; reflexivity)) as Q. cbn [In] in Q. cbn [find fst].
        repeat match goal with |- context [?k =? n] => destruct (Z.eqb_spec k n); [exfalso; tauto|] end. reflexivity. }
      unfold any_reg_name. destruct (Z.leb_spec 0 n) as [L|L]; destruct (Z.ltb_spec n 16) as [L'|L']; cbn [andb].
      { exfalso. apply (K [0; 1; 2; 3; 4; 5; 6; 7; 8; 9; 10; 11; 12; 13; 14; 15] ltac:(vm_compute; reflexivity)). apply sixteen. lia. }
      all: destruct (Z.leb_spec 64 n) as [M|M]; destruct (Z.ltb_spec n 96) as [M'|M']; cbn [andb];
        try (exfalso; apply (K (map (fun k => 64 + Z.of_nat k) (seq 0 32)) ltac:(vm_compute; reflexivity)); apply in_map_iff; exists (Z.to_nat (n - 64));
             split; [lia|apply in_seq; lia]).
      all: rewrite FN; reflexivity.
    + clear - N. revert N. generalize CORE_REGISTER_NAMES. intros d. induction d as [|[k v] d IH]; intros N; [reflexivity|]. cbn [dict_get]. cbn [map fst In] in N.
      destruct (Z.eqb_spec n k) as [->|X]; [exfalso; apply N; left; reflexivity|]. apply IH. tauto.
Qed.

(*@doc C89: a register operand prints the name of the register, whichever has one, and raises
    KeyError for a number that no register has. @*)
Lemma C89_register_proof : forall f n wb, format_operand f (RegOp n wb) =
  match any_reg_name n with Some s => Ok (RegOp n wb, f, Some (if wb then s +++ "!" else s)) | None => Err KeyError end.
Proof.
  intros f n wb. cbn [format_operand]. unfold format_register. rewrite any_name. destruct (any_reg_name n) as [s|]; cbn [bind]; [|reflexivity].
  destruct wb; reflexivity.
Qed.
(*@ex
Example C89_register_ex : format_operand (mkfmt None []) (RegOp 95 true) = Ok (RegOp 95 true, mkfmt None [], Some "s31!") /\
  format_operand (mkfmt None []) (RegOp 19 true) = Err KeyError.
Proof. vm_compute. split; reflexivity. Qed.
@*)

Lemma range_any : forall regs s e, 0 <= s <= e ->
  add_reg_range regs s e = match run_name (s, e) with Some t => Ok (regs ++ [t]) | None => Err KeyError end.
Proof.
  intros regs s e H. unfold add_reg_range, run_name. destruct (Z.eqb_spec s (-1)); [lia|]. cbn [negb].
  destruct (Z.eqb_spec s e) as [->|N]; rewrite !any_name; destruct (any_reg_name _); cbn [bind]; try reflexivity.
  destruct (any_reg_name e); reflexivity.
Qed.
Definition with_names (regs : list string) (l : list (Z * Z)) : res (list string) :=
  match run_names l with Some t => Ok (regs ++ t) | None => Err KeyError end.
Lemma with_names_cons : forall regs r l, with_names regs (r :: l) =
  match run_name r with Some t => with_names (regs ++ [t]) l | None => Err KeyError end.
Proof.
  intros. unfold with_names. cbn [run_names]. destruct (run_name r); [|reflexivity]. destruct (run_names l); [|reflexivity]. rewrite <- app_assoc. reflexivity.
Qed.
Lemma apart_low : forall w r l lo, apart lo w l -> In r l -> lo <= fst r.
Proof.
  intros w r l. induction l as [|[s e] l IH]; intros lo A I; [destruct I|]. cbn [apart] in A. destruct A as (A1 & A2 & A3).
  destruct I as [<-|I]; [cbn; lia|]. pose proof (IH _ A3 I). lia.
Qed.
Lemma reglist_any : forall v w m n regs, 0 <= n -> w = n + Z.of_nat m ->
  (exists l, reglist_loop (bit_list v n m) n regs (-1) (-1) = with_names regs l /\ apart n w l /\
     forall k, n <= k < w -> (Z.testbit v k = true <-> exists r, In r l /\ within k r)) /\
  (forall s, 0 <= s <= n - 1 -> exists e l,
     reglist_loop (bit_list v n m) n regs s (n - 1) = with_names regs ((s, e) :: l) /\ n - 1 <= e < w /\
     apart (e + 2) w l /\ forall k, n <= k < w -> (Z.testbit v k = true <-> k <= e \/ exists r, In r l /\ within k r)).
Proof.
  intros v w. induction m as [|m IH]; intros n regs N W.
  - split.
    + exists []. cbn [bit_list seq map reglist_loop]. rewrite range_none. unfold with_names. cbn [run_names]. rewrite app_nil_r.
      split; [reflexivity|]. split; [exact Logic.I|]. intros k K. lia.
    + intros s H. exists (n - 1), []. cbn [bit_list seq map reglist_loop]. rewrite range_any by lia. rewrite with_names_cons. unfold with_names. cbn [run_names].
      split; [destruct (run_name (s, n - 1)); [rewrite app_nil_r|]; reflexivity|]. split; [lia|]. split; [exact Logic.I|]. intros k K. lia.
  - rewrite bit_list_S. cbn [reglist_loop]. destruct (Z.testbit v n) eqn:B; cbn [b2z].
    + change (negb (1 =? 0)) with true. cbv iota. split.
      * change (-1 =? -1) with true. cbv iota.
        destruct (proj2 (IH (n + 1) regs ltac:(lia) ltac:(lia)) n ltac:(lia)) as (e & l & E & R & A & C).
        replace (n + 1 - 1) with n in * by lia. exists ((n, e) :: l). split; [exact E|]. split; [cbn [apart]; split; [lia|split; [lia|exact A]]|].
        intros k K. cbn [In]. destruct (Z.eq_dec k n) as [->|Q].
        { split; [intros _|auto]. exists (n, e). split; [left; reflexivity|unfold within; cbn; lia]. }
        rewrite (C k ltac:(lia)). split.
        { intros [L|(r & I & X)]; [exists (n, e); split; [left; reflexivity|unfold within; cbn; lia]|exists r; split; [right; exact I|exact X]]. }
        { intros (r & [<-|I] & X); [left; unfold within in X; cbn in X; lia|right; exists r; split; assumption]. }
      * intros s H. destruct (Z.eqb_spec s (-1)); [lia|].
        destruct (proj2 (IH (n + 1) regs ltac:(lia) ltac:(lia)) s ltac:(lia)) as (e & l & E & R & A & C).
        replace (n + 1 - 1) with n in * by lia. exists e, l. split; [exact E|]. split; [lia|]. split; [exact A|].
        intros k K. destruct (Z.eq_dec k n) as [->|Q]; [rewrite B; split; [intros _; left; lia|reflexivity]|]. apply C. lia.
    + change (negb (0 =? 0)) with false. cbv iota. split.
      * rewrite range_none. cbn [bind].
        destruct (proj1 (IH (n + 1) regs ltac:(lia) ltac:(lia))) as (l & E & A & C). exists l. split; [exact E|].
        split; [destruct l as [|[s e] l]; [exact A|]; cbn [apart] in *; destruct A as (A1 & A2 & A3); split; [lia|split; assumption]|].
        intros k K. destruct (Z.eq_dec k n) as [->|Q]; [rewrite B|apply C; lia]. split; [discriminate|].
        intros (r & I & X). exfalso. pose proof (apart_low _ _ _ _ A I). unfold within in X. lia.
      * intros s H. rewrite range_any by lia.
        destruct (proj1 (IH (n + 1) (match run_name (s, n - 1) with Some t => regs ++ [t] | None => [] end) ltac:(lia) ltac:(lia))) as (l & E & A & C).
        exists (n - 1), l. rewrite with_names_cons. split; [destruct (run_name (s, n - 1)); [exact E|reflexivity]|].
        split; [lia|]. replace (n - 1 + 2) with (n + 1) by lia. split; [exact A|].
        intros k K. destruct (Z.eq_dec k n) as [->|Q].
        { rewrite B. split; [discriminate|]. intros [L|(r & I & X)]; [lia|]. exfalso. pose proof (apart_low _ _ _ _ A I). unfold within in X. lia. }
        rewrite (C k ltac:(lia)). split; [right; assumption|intros [L|X]; [lia|exact X]].
Qed.
(*@doc C89: a register list of any width prints the runs of its registers if the ends of all runs
    have names, and raises KeyError otherwise. @*)
Lemma C89_reglist_proof : forall f w v, 0 <= w -> 0 <= v < 2 ^ w -> exists l, apart 0 w l /\
  (forall n, 0 <= n < w -> (Z.testbit v n = true <-> exists r, In r l /\ within n r)) /\
  format_operand f (ReglistOp (bits w v)) =
  match run_names l with Some t => Ok (ReglistOp (bits w v), f, Some ("{" +++ separated "," t +++ "}")) | None => Err KeyError end.
Proof.
  intros f w v W V. destruct (proj1 (reglist_any v w (Z.to_nat w) 0 [] ltac:(lia) ltac:(lia))) as (l & E & A & C).
  exists l. split; [exact A|]. split; [exact C|]. cbn [format_operand]. unfold format_reglist. rewrite iter_bits by lia. rewrite E. unfold with_names.
  destruct (run_names l) as [t|]; cbn [bind]; [|reflexivity]. cbn [app]. rewrite join_separated. reflexivity.
Qed.
(*@ex
Example C89_reglist_ex : format_operand (mkfmt None []) (ReglistOp (bits 19 0x40003)) = Ok (ReglistOp (bits 19 0x40003), mkfmt None [], Some "{r0-r1,psp}") /\
  format_operand (mkfmt None []) (ReglistOp (bits 20 0x80003)) = Err KeyError.
Proof. vm_compute. split; reflexivity. Qed.
@*)

(*@doc C89: a shift prints its name and amount, or nothing; a barrier option its name or its
    number; the flags of cps their letters. @*)
Lemma C89_simple_proof : forall f ty n p q,
  (exists s, dec_text s n /\ format_operand f (ShiftRotateOp ty n) =
    Ok (ShiftRotateOp ty n, f, match ty with SR_None => None | _ => Some (shift_name ty +++ " #" +++ s) end)) /\
  (exists s, dec_text s n /\ format_operand f (BarrierOp n) = Ok (BarrierOp n, f, Some (if n =? 15 then "sy" else "#" +++ s))) /\
  format_operand f (CpsOp p q) = Ok (CpsOp p q, f, Some ((if p then "i" else "") +++ (if q then "f" else ""))).
Proof.
  intros f ty n p q. split; [|split].
  - exists (fmt_d n). split; [apply fmt_d_text|]. destruct ty; reflexivity.
  - exists (fmt_d n). split; [apply fmt_d_text|]. cbn [format_operand]. unfold format_barrier. destruct (n =? 15); reflexivity.
  - reflexivity.
Qed.
(*@ex
Example C89_simple_ex : format_operand (mkfmt None []) (ShiftRotateOp SR_RRX (-1)) = Ok (ShiftRotateOp SR_RRX (-1), mkfmt None [], Some "RRX #-1") /\
  format_operand (mkfmt None []) (BarrierOp 14) = Ok (BarrierOp 14, mkfmt None [], Some "#14").
Proof. vm_compute. split; reflexivity. Qed.
@*)

Lemma above_nine : forall b, bs_gt b (VInt 9) = Ok (b, 9 <? bv b).
Proof.
  intros b. unfold bs_gt, bs_le, bs_eq, bs_lt. change (9 <? 0) with false. cbv iota. cbn [bind].
  destruct (Z.eqb_spec (bv b) 9) as [E|E]; destruct (Z.ltb_spec (bv b) 9) as [L|L]; destruct (Z.ltb_spec 9 (bv b)) as [L'|L']; cbn [negb bind]; try reflexivity; lia.
Qed.
(*@doc C89: the operands that refer to the instruction being formatted: the immediate of the
    instruction, as it is then, and a label. Outside of an instruction both raise
    AttributeError, as does the immediate of an instruction that has none. @*)
Lemma C89_current_proof : forall f off,
  match f_instruction f with
  | None => format_operand f ImmRefOp = Err AttributeError /\ format_operand f (LabelOp off) = Err AttributeError
  | Some i =>
    match imm_value i with
    | None => format_operand f ImmRefOp = Err AttributeError
    | Some v => exists s c, number_shown v s c /\ format_operand f ImmRefOp = Ok (ImmRefOp, mkfmt (Some i) (f_comments f ++ c), Some s)
    end /\
    exists s h, sign_text s (off + 4) /\ hex_text h (i_address i + 4 + off) /\
      format_operand f (LabelOp off) = Ok (LabelOp off, mkfmt (Some i) (f_comments f ++ ["0x" +++ h]), Some ("." +++ s))
  end.
Proof.
  intros [[i|] cs] off; cbn [f_instruction f_comments format_operand]; [|split; reflexivity]. split.
  - unfold imm_value. destruct (a_imm32 (i_attrs i)) as [b|]; [|reflexivity].
    exists ("#" +++ fmt_d (bv b)), (if 9 <? bv b then ["0x" +++ fmt_x (bv b)] else []). split; [apply number_ok|].
    unfold format_immediate_bits. rewrite above_nine. cbn [bind]. destruct (9 <? bv b); [reflexivity|]. rewrite app_nil_r. reflexivity.
  - exists (fmt_plus_d (off + 4)), (fmt_x (i_address i + 4 + off)). split; [apply fmt_plus_text|]. split; [apply fmt_x_text|]. reflexivity.
Qed.
(*@ex
Example C89_current_ex : format_operand (mkfmt (Some (an_insn Move [Imm 300] false)) ["x"]) ImmRefOp =
    Ok (ImmRefOp, mkfmt (Some (an_insn Move [Imm 300] false)) ["x"; "0x12c"], Some "#300") /\
  format_operand (mkfmt (Some (an_insn Move [] false)) []) ImmRefOp = Err AttributeError.
Proof. vm_compute. split; reflexivity. Qed.
@*)

Lemma turns : forall l f, in_turn f l (format_operands f l).
Proof.
  induction l as [|o l IH]; intros f; [constructor|]. cbn [format_operands].
  destruct (format_operand f o) as [[[o' f'] s]|e] eqn:E; cbn [bind]; [|apply turn_stop; exact E].
  specialize (IH f'). destruct (format_operands f' l) as [[[l' f''] ss]|e]; cbn [bind].
  - destruct s as [t|]; [apply (turn_text _ _ _ f')|apply (turn_none _ _ _ f')]; assumption.
  - apply (turn_late _ _ o' f' s); assumption.
Qed.
Lemma turn_only : forall f l r, in_turn f l r -> format_operands f l = r.
Proof.
  intros f l r T. induction T as [f|f o l e E|f o o' f' s l e E T IH|f o o' f' l l' f'' ss E T IH|f o o' f' s l l' f'' ss E T IH]; cbn [format_operands];
    [reflexivity| | | |]; rewrite E; cbn [bind]; rewrite ?IH; reflexivity.
Qed.
(*@doc C89: a memory operand holds operands of any kind: they are formatted one after the other
    and put between brackets; the first exception ends it. @*)
Lemma C89_memory_proof : forall f l r, in_turn f l r -> format_operand f (MemOp l) =
  match r with Ok (l', f', ss) => Ok (MemOp l', f', Some ("[" +++ separated ", " ss +++ "]")) | Err e => Err e end.
Proof.
  intros f l r T. rewrite mem_operands, (turn_only _ _ _ T). destruct r as [[[l' f'] ss]|e]; cbn [bind]; [|reflexivity]. rewrite join_separated. reflexivity.
Qed.
(*@ex
Example C89_memory_ex : exists r, in_turn (mkfmt None []) [RegOp 1 false; ImmOp 0 true; ImmOp 12 false] r /\
  format_operand (mkfmt None []) (MemOp [RegOp 1 false; ImmOp 0 true; ImmOp 12 false]) =
  Ok (MemOp [RegOp 1 false; ImmOp 0 true; ImmOp 12 false], mkfmt None ["0xc"], Some "[r1, #12]") /\
  format_operand (mkfmt None []) (MemOp [RegOp 1 false; LabelOp 0; RegOp 20 false]) = Err AttributeError.
Proof.
  eexists. split; [|split; vm_compute; reflexivity].
  eapply turn_text; [vm_compute; reflexivity|]. eapply turn_none; [vm_compute; reflexivity|]. eapply turn_text; [vm_compute; reflexivity|]. apply turn_nil.
Qed.
@*)

(*@doc C89: formatting an instruction object with any operands and any mnemonic: they are
    formatted one after the other, with no comments at first; the line is made of the bytes,
    the mnemonic, the texts and the comments. The first exception ends it. Every list of
    operands is formatted one way. @*)
Lemma C89_instruction_proof : forall f i r, in_turn (mkfmt (Some i) []) (i_operands i) r ->
  match r with
  | Ok (l', f', ss) => exists text, line i ss (f_comments f') text /\ format f i = Ok (set_operands l' i, mkfmt None (f_comments f'), text)
  | Err e => format f i = Err e
  end.
Proof.
  intros f i r T. apply turn_only in T. destruct (byte_string_ok i) as (s & E & C). unfold format. rewrite E. cbn [bind]. rewrite T.
  destruct r as [[[l' f'] ss]|e]; cbn [bind]; [|reflexivity].
  eexists. split; [|reflexivity]. exists (pad_right 12 s). split; [exact C|]. cbv zeta.
  rewrite !join_separated, !pad_left, !append_assoc. destruct (f_comments f'); reflexivity.
Qed.
(*@ex
Example C89_instruction_ex :
  format (mkfmt None ["junk"]) (mkinsn "foo" 0xabcd false 0 Move [ImmOp 16 false; ReglistOp (bits 4 9)] (attributes [])) =
  Ok (mkinsn "foo" 0xabcd false 0 Move [ImmOp 16 false; ReglistOp (bits 4 9)] (attributes []), mkfmt None ["0x10"], "abcd         foo     #16, {r0,r3}    ; 0x10").
Proof. vm_compute. reflexivity. Qed.
@*)
(*@doc C89: any operands can be formatted one after the other, and there is one result. @*)
Lemma C89_turns_proof : forall f l, exists r, in_turn f l r /\ forall r', in_turn f l r' -> r' = r.
Proof. intros f l. exists (format_operands f l). split; [apply turns|]. intros r' T. symmetry. apply turn_only. exact T. Qed.
