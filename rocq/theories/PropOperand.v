(** Property statements; each is proved in OperandThms.v under the same name.
    Written by tools/genprops.py. *)
From Coq Require Import Lia.
From Verif Require Import InsnModel TableModel FormatModel BitstringModel SpecBits SpecArm SpecIsa SpecFormat SpecExec SpecOperand OperandThms.
Import ListNotations.
Local Open Scope string_scope.
Local Open Scope list_scope.
Local Open Scope Z_scope.

(** C89: a register operand prints the name of the register, whichever has one, and raises
    KeyError for a number that no register has. *)
Theorem C89_register : forall f n wb, format_operand f (RegOp n wb) =
  match any_reg_name n with Some s => Ok (RegOp n wb, f, Some (if wb then s +++ "!" else s)) | None => Err KeyError end.
Proof. exact C89_register_proof. Qed.
Print Assumptions C89_register.

Example C89_register_ex : format_operand (mkfmt None []) (RegOp 95 true) = Ok (RegOp 95 true, mkfmt None [], Some "s31!") /\
  format_operand (mkfmt None []) (RegOp 19 true) = Err KeyError.
Proof. vm_compute. split; reflexivity. Qed.

(** C89: a register list of any width prints the runs of its registers if the ends of all runs
    have names, and raises KeyError otherwise. *)
Theorem C89_reglist : forall f w v, 0 <= w -> 0 <= v < 2 ^ w -> exists l, apart 0 w l /\
  (forall n, 0 <= n < w -> (Z.testbit v n = true <-> exists r, In r l /\ within n r)) /\
  format_operand f (ReglistOp (bits w v)) =
  match run_names l with Some t => Ok (ReglistOp (bits w v), f, Some ("{" +++ separated "," t +++ "}")) | None => Err KeyError end.
Proof. exact C89_reglist_proof. Qed.
Print Assumptions C89_reglist.

Example C89_reglist_ex : format_operand (mkfmt None []) (ReglistOp (bits 19 0x40003)) = Ok (ReglistOp (bits 19 0x40003), mkfmt None [], Some "{r0-r1,psp}") /\
  format_operand (mkfmt None []) (ReglistOp (bits 20 0x80003)) = Err KeyError.
Proof. vm_compute. split; reflexivity. Qed.

(** C89: a shift prints its name and amount, or nothing; a barrier option its name or its
    number; the flags of cps their letters. *)
Theorem C89_simple : forall f ty n p q,
  (exists s, dec_text s n /\ format_operand f (ShiftRotateOp ty n) =
    Ok (ShiftRotateOp ty n, f, match ty with SR_None => None | _ => Some (shift_name ty +++ " #" +++ s) end)) /\
  (exists s, dec_text s n /\ format_operand f (BarrierOp n) = Ok (BarrierOp n, f, Some (if n =? 15 then "sy" else "#" +++ s))) /\
  format_operand f (CpsOp p q) = Ok (CpsOp p q, f, Some ((if p then "i" else "") +++ (if q then "f" else ""))).
Proof. exact C89_simple_proof. Qed.
Print Assumptions C89_simple.

Example C89_simple_ex : format_operand (mkfmt None []) (ShiftRotateOp SR_RRX (-1)) = Ok (ShiftRotateOp SR_RRX (-1), mkfmt None [], Some "RRX #-1") /\
  format_operand (mkfmt None []) (BarrierOp 14) = Ok (BarrierOp 14, mkfmt None [], Some "#14").
Proof. vm_compute. split; reflexivity. Qed.

(** C89: the operands that refer to the instruction being formatted: the immediate of the
    instruction, as it is then, and a label. Outside of an instruction both raise
    AttributeError, as does the immediate of an instruction that has none. *)
Theorem C89_current : forall f off,
  match f_instruction f with
  | None => format_operand f ImmRefOp = Err AttributeError /\ format_operand f (LabelOp off) = Err AttributeError
  | Some i =>
    match imm_value i with
    | None => format_operand f ImmRefOp = Err AttributeError
    | Some v => exists s c, number_shown v s c /\ format_operand f ImmRefOp = Ok (ImmRefOp, mkfmt (Some i) (f_comments f ++ c), Some s)
    end /\
    exists s h, sign_text s (off + 4) /\ hex_text h (i_address i + 4 + off) /\
      format_operand f (LabelOp off) = Ok (LabelOp off, mkfmt (Some i) (f_comments f ++ ["0x" +++ h]), Some ("." +++ s))
  end.
Proof. exact C89_current_proof. Qed.
Print Assumptions C89_current.

Example C89_current_ex : format_operand (mkfmt (Some (an_insn Move [Imm 300] false)) ["x"]) ImmRefOp =
    Ok (ImmRefOp, mkfmt (Some (an_insn Move [Imm 300] false)) ["x"; "0x12c"], Some "#300") /\
  format_operand (mkfmt (Some (an_insn Move [] false)) []) ImmRefOp = Err AttributeError.
Proof. vm_compute. split; reflexivity. Qed.

(** C89: a memory operand holds operands of any kind: they are formatted one after the other
    and put between brackets; the first exception ends it. *)
Theorem C89_memory : forall f l r, in_turn f l r -> format_operand f (MemOp l) =
  match r with Ok (l', f', ss) => Ok (MemOp l', f', Some ("[" +++ separated ", " ss +++ "]")) | Err e => Err e end.
Proof. exact C89_memory_proof. Qed.
Print Assumptions C89_memory.

Example C89_memory_ex : exists r, in_turn (mkfmt None []) [RegOp 1 false; ImmOp 0 true; ImmOp 12 false] r /\
  format_operand (mkfmt None []) (MemOp [RegOp 1 false; ImmOp 0 true; ImmOp 12 false]) =
  Ok (MemOp [RegOp 1 false; ImmOp 0 true; ImmOp 12 false], mkfmt None ["0xc"], Some "[r1, #12]") /\
  format_operand (mkfmt None []) (MemOp [RegOp 1 false; LabelOp 0; RegOp 20 false]) = Err AttributeError.
Proof.
  eexists. split; [|split; vm_compute; reflexivity].
  eapply turn_text; [vm_compute; reflexivity|]. eapply turn_none; [vm_compute; reflexivity|]. eapply turn_text; [vm_compute; reflexivity|]. apply turn_nil.
Qed.

(** C89: formatting an instruction object with any operands and any mnemonic: they are
    formatted one after the other, with no comments at first; the line is made of the bytes,
    the mnemonic, the texts and the comments. The first exception ends it. Every list of
    operands is formatted one way. *)
Theorem C89_instruction : forall f i r, in_turn (mkfmt (Some i) []) (i_operands i) r ->
  match r with
  | Ok (l', f', ss) => exists text, line i ss (f_comments f') text /\ format f i = Ok (set_operands l' i, mkfmt None (f_comments f'), text)
  | Err e => format f i = Err e
  end.
Proof. exact C89_instruction_proof. Qed.
Print Assumptions C89_instruction.

Example C89_instruction_ex :
  format (mkfmt None ["junk"]) (mkinsn "foo" 0xabcd false 0 Move [ImmOp 16 false; ReglistOp (bits 4 9)] (attributes [])) =
  Ok (mkinsn "foo" 0xabcd false 0 Move [ImmOp 16 false; ReglistOp (bits 4 9)] (attributes []), mkfmt None ["0x10"], "abcd         foo     #16, {r0,r3}    ; 0x10").
Proof. vm_compute. reflexivity. Qed.

(** C89: any operands can be formatted one after the other, and there is one result. *)
Theorem C89_turns : forall f l, exists r, in_turn f l r /\ forall r', in_turn f l r' -> r' = r.
Proof. exact C89_turns_proof. Qed.
Print Assumptions C89_turns.
