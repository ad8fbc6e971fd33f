(** Property statements; each is proved in FormatThms.v under the same name.
    Written by tools/genprops.py. *)
From Coq Require Import Lia.
From Verif Require Import InsnModel TableModel ExecModel SpecArm SpecDecoder SpecCpu SpecExec FormatModel SpecBits SpecIsa SpecWhole SpecFormat FormatThms.
Import ListNotations.
Local Open Scope string_scope.
Local Open Scope list_scope.
Local Open Scope Z_scope.

(** C57: a decoded instruction can always be formatted, and the text starts with its
halfwords in hexadecimal, padded to 12 columns, and the mnemonic, padded to 8. *)
Theorem C57_column : forall py i f, from_bytes py i -> exists text column rest,
  text_of f i = Ok text /\ byte_column (i_bytes i) column /\ text = column +++ " " +++ left_justified 8 (i_mnemonic i) +++ rest.
Proof. exact C57_column_proof. Qed.
Print Assumptions C57_column.

Example C57_column_ex : exists i, decode_bytes Py2 [0; 240; 3; 248] 100 = Ok i /\
  text_of (mkfmt None ["junk"]) i = Ok "f000 f803    bl      .+10            ; 0x6e".
Proof. eexists. split; vm_compute; reflexivity. Qed.

(** C57: the first 12 columns determine the bytes. *)
Theorem C57_identifies : forall l l' s, bytes l -> bytes l' -> byte_column l s -> byte_column l' s -> l = l'.
Proof. exact C57_identifies_proof. Qed.
Print Assumptions C57_identifies.

Example C57_identifies_ex : byte_column [0; 240; 3; 248] "f000 f803   " /\ byte_column [3; 72] "4803        ".
Proof.
  split; cbn [byte_column].
  - exists "f000", "f803". split; [reflexivity|]. split; (split; [reflexivity|]); (split; [repeat (apply Forall_cons; [split; vm_compute; [intros H; discriminate H|reflexivity]|]); apply Forall_nil|reflexivity]).
  - exists "4803". split; [reflexivity|]. split; [reflexivity|]. split; [repeat (apply Forall_cons; [split; vm_compute; [intros H; discriminate H|reflexivity]|]); apply Forall_nil|reflexivity].
Qed.

(** C58: a register list, of any width up to the register file, prints as the runs of its
registers: in increasing order, separated by gaps (so maximal), and covering exactly the
registers listed. *)
Theorem C58_runs : forall f w v, 0 <= w <= 16 -> 0 <= v < 2 ^ w ->
  exists t, format_operand f (ReglistOp (bits w v)) = Ok (ReglistOp (bits w v), f, Some t) /\ reglist_text w v t.
Proof. exact C58_runs_proof. Qed.
Print Assumptions C58_runs.

Example C58_runs_ex : format_operand (mkfmt None []) (ReglistOp (bits 16 57591)) =
  Ok (ReglistOp (bits 16 57591), mkfmt None [], Some "{r0-r2,r4-r7,sp-pc}") /\
  Z.testbit 57591 3 = false /\ Z.testbit 57591 5 = true /\ Z.testbit 57591 14 = true.
Proof. vm_compute. repeat split; reflexivity. Qed.

(** C58: the printed text, read back by cutting it at commas and dashes, gives the list. *)
Theorem C58_readable : forall f v, 0 <= v < 65536 ->
  exists t, format_operand f (ReglistOp (bits 16 v)) = Ok (ReglistOp (bits 16 v), f, Some t) /\ read_reglist t = Some v.
Proof. exact C58_readable_proof. Qed.
Print Assumptions C58_readable.

Example C58_readable_ex : read_reglist "{r0-r2,r4-r7,sp-pc}" = Some 57591 /\ read_reglist "{r0-r2,r4-r7,sp-pc" = None.
Proof. vm_compute. repeat split; reflexivity. Qed.

(** C62: the whole line of a decoded instruction: its operands as they should be shown, at
its address and with its immediate, with the comments in column 36. Missing here: msr with
a mask that the code prints wrongly (C61_refuted). *)
Theorem C62_line_partial : forall py i f, from_bytes py i -> ordinary i -> exists texts comments text,
  text_of f i = Ok text /\ shows_all (i_address i) (imm_value i) (i_operands i) texts comments /\ line i texts comments text.
Proof. exact C62_line_partial_proof. Qed.
Print Assumptions C62_line_partial.

Example C62_line_partial_ex : exists i, decode_bytes Py2 [3; 72] 100 = Ok i /\ ordinary i /\
  text_of (mkfmt None []) i = Ok "4803         ldr     r0, [pc, #12]   ; 0xc".
Proof. eexists. split; [vm_compute; reflexivity|]. split; vm_compute; reflexivity. Qed.

(** C62: any integer, hidden when zero if so requested. *)
Theorem C62_number : forall i cs v hide, exists s c,
  format_operand (mkfmt (Some i) cs) (ImmOp v hide) = Ok (ImmOp v hide, mkfmt (Some i) (cs ++ c), s) /\
  match s with
  | None => v = 0 /\ hide = true /\ c = []
  | Some t => (v <> 0 \/ hide = false) /\ number_shown v t c
  end.
Proof. exact C62_number_proof. Qed.
Print Assumptions C62_number.

Example C62_number_ex : format_operand (mkfmt None []) (ImmOp 300 true) = Ok (ImmOp 300 true, mkfmt None ["0x12c"], Some "#300") /\
  format_operand (mkfmt None []) (ImmOp (-300) true) = Ok (ImmOp (-300) true, mkfmt None [], Some "#-300") /\
  format_operand (mkfmt None []) (ImmOp 0 true) = Ok (ImmOp 0 true, mkfmt None [], None).
Proof. vm_compute. repeat split; reflexivity. Qed.

(** C62: a label prints the signed distance from the instruction. *)
Theorem C62_label : forall i cs off, exists s h,
  format_operand (mkfmt (Some i) cs) (LabelOp off) = Ok (LabelOp off, mkfmt (Some i) (cs ++ ["0x" +++ h]), Some ("." +++ s)) /\
  sign_text s (off + 4) /\ hex_text h (i_address i + 4 + off).
Proof. exact C62_label_proof. Qed.
Print Assumptions C62_label.

Example C62_label_ex : exists i, decode_bytes Py2 [254; 231] 4096 = Ok i /\
  format_operand (mkfmt (Some i) ["x"]) (LabelOp (-4)) = Ok (LabelOp (-4), mkfmt (Some i) ["x"; "0x1000"], Some ".+0").
Proof. eexists. split; vm_compute; reflexivity. Qed.

(** C62: a text denotes at most one number, so that reading it gives the number back. *)
Theorem C62_readable : forall s z z',
  (dec_text s z -> dec_text s z' -> z = z') /\ (hex_text s z -> hex_text s z' -> z = z') /\ (sign_text s z -> sign_text s z' -> z = z').
Proof. exact C62_readable_proof. Qed.
Print Assumptions C62_readable.

Example C62_readable_ex : exists s, sign_text s (-18) /\ s = "-18".
Proof.
  exists "-18". split; [|reflexivity]. exists "18". split; [reflexivity|]. split; [(split; [repeat (apply Forall_cons; [split; vm_compute; [intros H; discriminate H|reflexivity]|]); apply Forall_nil|reflexivity])|].
  split; [discriminate|]. intros _. exists "1"%char, "8". split; [reflexivity|discriminate].
Qed.

(** C61: every special register prints under its name; exactly the values of SYSm that are
special registers have one. *)
Theorem C61_names : forall f y, 0 <= y < 256 ->
  format_operand f (SpecialOp (bits 8 y) None) = Ok (SpecialOp (bits 8 y) None, f, Some (special_name y)) /\
  special y = negb (String.eqb (special_name y) "").
Proof. exact C61_names_proof. Qed.
Print Assumptions C61_names.

Example C61_names_ex : format_operand (mkfmt None []) (SpecialOp (bits 8 18) None) =
  Ok (SpecialOp (bits 8 18) None, mkfmt None [], Some "BASEPRI_MAX").
Proof. vm_compute. reflexivity. Qed.

(** C61: with a mask, the suffix is right for mask 01 and for registers without a suffix.
For masks 10 and 11 the comparison with -1 turns the mask into its complement first, so
that 10 prints as 01 and 11 prints no suffix. *)
Theorem C61_suffix_partial : forall f y k, 0 <= y < 256 -> 0 <= k < 4 ->
  format_operand f (SpecialOp (bits 8 y) (Some (bits 2 k))) =
    Ok (SpecialOp (bits 8 y) (Some (bits 2 (mask_after y k))), f, Some (special_name y +++ (if y <? 4 then printed_suffix k else ""))) /\
  (k < 2 -> printed_suffix k = mask_suffix k).
Proof. exact C61_suffix_partial_proof. Qed.
Print Assumptions C61_suffix_partial.

Example C61_suffix_partial_ex : format_operand (mkfmt None []) (SpecialOp (bits 8 3) (Some (bits 2 1))) =
  Ok (SpecialOp (bits 8 3) (Some (bits 2 1)), mkfmt None [], Some "XPSR_g").
Proof. vm_compute. reflexivity. Qed.

(** C61: refuted: msr APSR_nzcvq, r0 prints as msr APSR_g, r0, and msr APSR_nzcvqg, r0 as
msr APSR, r0. *)
Theorem C61_refuted : exists i j, from_bytes Py2 i /\ i_operands i = [SpecialOp (bits 8 0) (Some (bits 2 2)); R 0] /\
  from_bytes Py2 j /\ i_operands j = [SpecialOp (bits 8 0) (Some (bits 2 3)); R 0] /\
  forall f, text_of f i = Ok "f380 8800    msr     APSR_g, r0" /\ text_of f j = Ok "f380 8c00    msr     APSR, r0".
Proof. exact C61_refuted_proof. Qed.
Print Assumptions C61_refuted.

(** C60: formatting a decoded instruction changes at most its operand objects, and gives
the same text again, with any formatter, on the original and on the formatted object. *)
Theorem C60_repeatable : forall py i, from_bytes py i -> exists ops text comments,
  forall f, format f i = Ok (set_operands ops i, mkfmt None comments, text) /\
            format f (set_operands ops i) = Ok (set_operands ops i, mkfmt None comments, text).
Proof. exact C60_repeatable_proof. Qed.
Print Assumptions C60_repeatable.

Example C60_repeatable_ex : exists i i', decode_bytes Py2 [128; 243; 0; 136] 0 = Ok i /\
  format (mkfmt None ["junk"]) i = Ok (i', mkfmt None [], "f380 8800    msr     APSR_g, r0") /\ i_operands i <> i_operands i' /\
  format (mkfmt (Some i) []) i' = Ok (i', mkfmt None [], "f380 8800    msr     APSR_g, r0").
Proof. eexists. eexists. split; [vm_compute; reflexivity|]. split; [vm_compute; reflexivity|]. split; [vm_compute; discriminate|vm_compute; reflexivity]. Qed.

(** C60: an instruction that has been formatted executes like one that has not: the same
machine, the same exception, and the same object up to its operand objects. *)
Theorem C60_execution : forall py c f i i' f' text, format f i = Ok (i', f', text) -> exists ops, i' = set_operands ops i /\
  let '(s, r) := execute py c i in execute py c i' = (mkst (s_cpu s) (set_operands ops (s_self s)), r).
Proof. exact C60_execution_proof. Qed.
Print Assumptions C60_execution.

Example C60_execution_ex : exists i i', decode_bytes Py2 [17; 48] 34 = Ok i /\
  format (mkfmt None []) i = Ok (i', mkfmt None ["0x11"], "3011         adds    r0, #17         ; 0x11") /\
  reg_after Py2 ex_state i 0 = reg_after Py2 ex_state i' 0 /\ reg_after Py2 ex_state i 0 = reg ex_state 0 + 17.
Proof. eexists. eexists. split; [vm_compute; reflexivity|]. split; [vm_compute; reflexivity|]. vm_compute. split; reflexivity. Qed.

(** C59: the line of a decoded instruction with a label ends with a comment giving the
address of the instruction plus 4 plus the offset, in hexadecimal. *)
Theorem C59_comment : forall py i off f, from_bytes py i -> In (LabelOp off) (i_operands i) ->
  exists front h, text_of f i = Ok (front +++ " ; 0x" +++ h) /\ hex_text h (i_address i + 4 + off).
Proof. exact C59_comment_proof. Qed.
Print Assumptions C59_comment.

Example C59_comment_ex : exists i, decode_bytes Py2 [2; 160] 100 = Ok i /\ In (LabelOp 8) (i_operands i) /\
  text_of (mkfmt None []) i = Ok "a002         adr     r0, .+12        ; 0x70".
Proof. eexists. split; [vm_compute; reflexivity|]. vm_compute. split; [right; left; reflexivity|reflexivity]. Qed.

(** C59: a forward branch that is taken with pc at the address of the instruction goes to
the printed address. Missing: backward branches (C59_branch_refuted). *)
Theorem C59_branch_partial : forall py c i off k f, regs_ok c -> from_bytes py i -> i_klass i = Branch -> i_operands i = [LabelOp off] ->
  0 <= off -> a_cond (i_attrs i) = Some k -> holds_in k (reg c 16) = true -> reg c 15 = i_address i ->
  exists front h target, text_of f i = Ok (front +++ " ; 0x" +++ h) /\ hex_text h target /\
    snd (execute py c i) = Ok tt /\ reg_after py c i 15 = target mod 2 ^ 32.
Proof. exact C59_branch_partial_proof. Qed.
Print Assumptions C59_branch_partial.

Example C59_branch_partial_ex : exists i, decode_bytes Py2 [3; 224] 34 = Ok i /\ i_operands i = [LabelOp 6] /\ a_cond (i_attrs i) = Some 15 /\
  reg ex_state 15 = i_address i /\ text_of (mkfmt None []) i = Ok "e003         b       .+10            ; 0x2c" /\ reg_after Py2 ex_state i 15 = 44.
Proof. eexists. split; [vm_compute; reflexivity|]. vm_compute. repeat split; reflexivity. Qed.

(** C59: adr with a positive offset, executed with pc at the address of the instruction,
loads the printed address if the instruction is at a multiple of 4. Missing: other
addresses and negative offsets (C59_adr_refuted). *)
Theorem C59_adr_partial : forall py c i d off f, regs_ok c -> from_bytes py i -> i_klass i = AddressToRegister -> i_operands i = [R d; LabelOp off] ->
  a_add (i_attrs i) = Some true -> d <> 13 -> d <> 15 -> reg c 15 = i_address i -> i_address i mod 4 = 0 ->
  exists front h target, text_of f i = Ok (front +++ " ; 0x" +++ h) /\ hex_text h target /\
    snd (execute py c i) = Ok tt /\ reg_after py c i d = target mod 2 ^ 32.
Proof. exact C59_adr_partial_proof. Qed.
Print Assumptions C59_adr_partial.

Example C59_adr_partial_ex : exists i, decode_bytes Py2 [2; 160] 36 = Ok i /\ i_operands i = [R 0; LabelOp 8] /\ a_add (i_attrs i) = Some true /\
  (let c := ex_with [(15, 36)] in reg c 15 = i_address i /\ reg_after Py2 c i 0 = 48) /\
  text_of (mkfmt None []) i = Ok "a002         adr     r0, .+12        ; 0x30".
Proof. eexists. split; [vm_compute; reflexivity|]. vm_compute. repeat split; reflexivity. Qed.

(** C59: refuted: the branch to itself at 34 prints 0x22 and goes to 41. *)
Theorem C59_branch_refuted : exists i c, from_bytes Py2 i /\ cpu_ok c /\ reg c 15 = i_address i /\
  text_of (mkfmt None []) i = Ok "e7fe         b       .+0             ; 0x22" /\ reg_after Py2 c i 15 = 41.
Proof. exact C59_branch_refuted_proof. Qed.
Print Assumptions C59_branch_refuted.

(** C59: refuted: adr at 34, not a multiple of 4, prints 0x2e and loads 44; the form of adr
with a negative offset, at 36, prints 0x34 and loads 28. *)
Theorem C59_adr_refuted : exists i c j c', from_bytes Py2 i /\ cpu_ok c /\ reg c 15 = i_address i /\
  text_of (mkfmt None []) i = Ok "a002         adr     r0, .+12        ; 0x2e" /\ reg_after Py2 c i 0 = 44 /\
  from_bytes Py2 j /\ cpu_ok c' /\ reg c' 15 = i_address j /\
  text_of (mkfmt None []) j = Ok "f2af 000c    adr.w   r0, .+16        ; 0x34" /\ reg_after Py2 c' j 0 = 28.
Proof. exact C59_adr_refuted_proof. Qed.
Print Assumptions C59_adr_refuted.
