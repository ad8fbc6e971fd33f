(** * What formatted text must look like

    Stated with the digits of numbers ([canonical], [denotes] of SpecBits) and names
    of registers; nothing of the formatter is used. *)
From Verif Require Import FormatModel SpecBits SpecArm SpecIsa.
Local Open Scope string_scope.
Local Open Scope list_scope.
Local Open Scope Z_scope.
Local Open Scope bool_scope.
Infix "+++" := String.append (at level 60, right associativity).

(** ** Numbers *)
(** Decimal with a minus sign if negative. *)
Definition dec_text (s : string) (z : Z) : Prop :=
  if z <? 0 then exists t, s = "-" +++ t /\ canonical 10 t (- z) else canonical 10 s z.
(** Lower-case hexadecimal with a minus sign if negative. *)
Definition hex_text (s : string) (z : Z) : Prop :=
  if z <? 0 then exists t, s = "-" +++ t /\ canonical 16 t (- z) else canonical 16 s z.
(** Decimal that always has a sign. *)
Definition sign_text (s : string) (z : Z) : Prop :=
  if z <? 0 then exists t, s = "-" +++ t /\ canonical 10 t (- z)
  else exists t, s = "+" +++ t /\ canonical 10 t z.

(** ** Columns *)
Fixpoint blanks (n : nat) : string := match n with O => "" | S n' => " " +++ blanks n' end.
(** Text with blanks added on the right up to a width. *)
Definition left_justified (width : Z) (s : string) : string :=
  s +++ blanks (Z.to_nat (width - Z.of_nat (String.length s))).
(** Texts with a separator between them. *)
Fixpoint separated (sep : string) (l : list string) : string :=
  match l with
  | [] => ""
  | [x] => x
  | x :: l' => x +++ sep +++ separated sep l'
  end.

(** ** Registers *)
Definition reg_name (n : Z) : string :=
  nth (Z.to_nat n) ["r0"; "r1"; "r2"; "r3"; "r4"; "r5"; "r6"; "r7"; "r8"; "r9"; "r10"; "r11"; "r12";
    "sp"; "lr"; "pc"] "".

(** A run of registers from the first to the last. *)
Definition run_text (r : Z * Z) : string :=
  let '(s, e) := r in if s =? e then reg_name s else reg_name s +++ "-" +++ reg_name e.
(** Runs in increasing order with a gap between any two. *)
Fixpoint apart (low high : Z) (l : list (Z * Z)) : Prop :=
  match l with
  | [] => True
  | (s, e) :: l' => low <= s <= e /\ e < high /\ apart (e + 2) high l'
  end.
Definition within (n : Z) (r : Z * Z) : Prop := fst r <= n <= snd r.
(** The text of the list of the registers whose bits are set among the lowest [w]. *)
Definition reglist_text (w v : Z) (t : string) : Prop :=
  exists l, t = "{" +++ separated "," (map run_text l) +++ "}" /\ apart 0 w l /\
    forall n, 0 <= n < w -> (Z.testbit v n = true <-> exists r, In r l /\ within n r).

(** Reading a list back: a text between braces is cut at the commas, each piece at the
    dash, and the bits of the registers in between are set. *)
Fixpoint cut (c : ascii) (s : string) : list string :=
  match s with
  | EmptyString => [""]
  | String a s' =>
    match cut c s' with
    | p :: l => if Ascii.eqb a c then "" :: p :: l else String a p :: l
    | [] => []
    end
  end.
Definition reg_of_name (s : string) : option Z :=
  find (fun n => String.eqb (reg_name n) s) [0; 1; 2; 3; 4; 5; 6; 7; 8; 9; 10; 11; 12; 13; 14; 15].
Definition read_run (s : string) : option Z :=
  match cut "-" s with
  | [x] => match reg_of_name x with Some n => Some (2 ^ n) | None => None end
  | [x; y] =>
    match reg_of_name x, reg_of_name y with
    | Some a, Some b => Some (2 ^ (b + 1) - 2 ^ a)
    | _, _ => None
    end
  | _ => None
  end.
Fixpoint read_runs (l : list string) : option Z :=
  match l with
  | [] => Some 0
  | s :: l' => match read_run s, read_runs l' with Some a, Some b => Some (Z.lor a b) | _, _ => None end
  end.
Definition read_reglist (s : string) : option Z :=
  match s with
  | String "{" s' =>
    let n := (String.length s' - 1)%nat in
    if String.eqb (substring n 1 s') "}" then
      let body := substring 0 n s' in
      if String.eqb body "" then Some 0 else read_runs (cut "," body)
    else None
  | _ => None
  end.

(** ** Special registers *)
Definition special_name (y : Z) : string :=
  match find (fun p => fst p =? y)
    [(0, "APSR"); (1, "IAPSR"); (2, "EAPSR"); (3, "XPSR"); (5, "IPSR"); (6, "EPSR"); (7, "IEPSR");
     (8, "MSP"); (9, "PSP"); (16, "PRIMASK"); (17, "BASEPRI"); (18, "BASEPRI_MAX"); (19, "FAULTMASK");
     (20, "CONTROL")] with
  | Some (_, s) => s
  | None => ""
  end.
(** What msr writes of the program status registers, for the two bits of its mask. *)
Definition mask_suffix (k : Z) : string :=
  if k =? 1 then "_g" else if k =? 2 then "_nzcvq" else if k =? 3 then "_nzcvqg" else "".

(** What the code prints instead, and the mask it leaves in the object. *)
Definition printed_suffix (k : Z) : string := if (k =? 1) || (k =? 2) then "_g" else "".
Definition mask_after (y k : Z) : Z := if (y <? 4) && (2 <=? k) then 3 - k else k.

(** ** Operands *)
Definition shift_name (ty : srtype) : string :=
  match ty with
  | SR_None => "" | SR_LSL => "LSL" | SR_LSR => "LSR" | SR_ASR => "ASR" | SR_ROR => "ROR" | SR_RRX => "RRX"
  end.

(** A number: # and its decimal digits; hexadecimal among the comments above 9. *)
Definition number_shown (v : Z) (s : string) (comments : list string) : Prop :=
  (exists t, s = "#" +++ t /\ dec_text t v) /\
  if 9 <? v then exists h, comments = ["0x" +++ h] /\ hex_text h v else comments = [].

(** The text (if any) and the comments for an operand of an instruction at address [a]
    whose attribute imm32 has the value [imm]. *)
Inductive shows (a : Z) (imm : option Z) : operand -> option string -> list string -> Prop :=
| shows_register n : 0 <= n < 16 -> shows a imm (RegOp n false) (Some (reg_name n)) []
| shows_register_wback n : 0 <= n < 16 -> shows a imm (RegOp n true) (Some (reg_name n +++ "!")) []
| shows_reglist v t : 0 <= v < 65536 -> reglist_text 16 v t -> shows a imm (ReglistOp (bits 16 v)) (Some t) []
| shows_zero : shows a imm (ImmOp 0 true) None []
| shows_number v s c : number_shown v s c -> shows a imm (ImmOp v false) (Some s) c
| shows_nonzero v s c : v <> 0 -> number_shown v s c -> shows a imm (ImmOp v true) (Some s) c
| shows_imm32 v s c : imm = Some v -> number_shown v s c -> shows a imm ImmRefOp (Some s) c
| shows_label off s h : sign_text s (off + 4) -> hex_text h (a + 4 + off) ->
    shows a imm (LabelOp off) (Some ("." +++ s)) ["0x" +++ h]
| shows_no_shift n : shows a imm (ShiftRotateOp SR_None n) None []
| shows_shift ty n s : ty <> SR_None -> dec_text s n ->
    shows a imm (ShiftRotateOp ty n) (Some (shift_name ty +++ " #" +++ s)) []
| shows_barrier_sy : shows a imm (BarrierOp 15) (Some "sy") []
| shows_barrier n s : n <> 15 -> dec_text s n -> shows a imm (BarrierOp n) (Some ("#" +++ s)) []
| shows_memory l t c : shows_all a imm l t c -> shows a imm (MemOp l) (Some ("[" +++ separated ", " t +++ "]")) c
| shows_cps p q : shows a imm (CpsOp p q) (Some ((if p then "i" else "") +++ (if q then "f" else ""))) []
| shows_special y : 0 <= y < 256 -> shows a imm (SpecialOp (bits 8 y) None) (Some (special_name y)) []
| shows_masked y k : 4 <= y < 256 -> 0 <= k < 4 ->
    shows a imm (SpecialOp (bits 8 y) (Some (bits 2 k))) (Some (special_name y)) []
| shows_suffixed y k : 0 <= y < 4 -> 0 <= k < 4 ->
    shows a imm (SpecialOp (bits 8 y) (Some (bits 2 k))) (Some (special_name y +++ mask_suffix k)) []
with shows_all (a : Z) (imm : option Z) : list operand -> list string -> list string -> Prop :=
| shows_nil : shows_all a imm [] [] []
| shows_skip o l t c c' : shows a imm o None c -> shows_all a imm l t c' -> shows_all a imm (o :: l) t (c ++ c')
| shows_cons o s l t c c' : shows a imm o (Some s) c -> shows_all a imm l t c' ->
    shows_all a imm (o :: l) (s :: t) (c ++ c').

(** The value of imm32, if there is one. *)
Definition imm_value (i : insn) : option Z :=
  match a_imm32 (i_attrs i) with Some b => Some (bv b) | None => None end.

(** ** The line *)
(** Four hexadecimal digits for a halfword of two bytes, low byte first. *)
Definition halfword_text (s : string) (l : list Z) : Prop :=
  String.length s = 4%nat /\ denotes 16 s (le_number l).
(** The first 12 columns for the bytes of an instruction. *)
Definition byte_column (l : list Z) (s : string) : Prop :=
  match l with
  | [b0; b1] => exists h, s = h +++ blanks 8 /\ halfword_text h [b0; b1]
  | [b0; b1; b2; b3] =>
    exists h h', s = h +++ " " +++ h' +++ blanks 3 /\ halfword_text h [b0; b1] /\ halfword_text h' [b2; b3]
  | _ => False
  end.
(** The line for an instruction from the texts and comments of its operands. *)
Definition line (i : insn) (texts comments : list string) (s : string) : Prop :=
  exists column, byte_column (i_bytes i) column /\
    let head := column +++ " " +++ left_justified 8 (i_mnemonic i) +++ separated ", " texts in
    s = match comments with
        | [] => head
        | _ => left_justified 36 head +++ " ; " +++ separated " " comments
        end.

(** An msr that writes a program status register with mask 10 or 11. *)
Definition odd_mask (o : operand) : bool :=
  match o with
  | SpecialOp y (Some k) => (bv y <? 4) && (2 <=? bv k)
  | _ => false
  end.
Definition ordinary (i : insn) : Prop := existsb odd_mask (i_operands i) = false.

(** A formatter that has formatted something. *)
Definition text_of (f : formatter) (i : insn) : res string :=
  let* '(_, _, s) := format f i in Ok s.
