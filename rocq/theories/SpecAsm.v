(** * What an instruction prints, read as an instruction

    [understood] takes a line of text, without its first columns with the bytes and without
    the comment, cuts it into the mnemonic and tokens, and says how many bytes the
    instruction has, which class it is of and which attributes it has.  It is written
    mnemonic by mnemonic as in the summary of an assembler, without the encodings. *)
From Verif Require Import InsnModel FormatModel ExecModel SpecBits SpecArm SpecIsa SpecFormat.
Local Open Scope string_scope.
Local Open Scope list_scope.
Local Open Scope Z_scope.
Local Open Scope bool_scope.

(** ** What is printed *)
Inductive token :=
| tReg (n : Z) (bang : bool)          (* r0, sp!  *)
| tList (regs : Z)                    (* {r0-r3,lr} *)
| tImm (v : Z)                        (* #12 *)
| tLabel (off : Z)                    (* .+8 *)
| tShift (ty : srtype) (n : Z)        (* LSL #2 *)
| tSystem                             (* sy *)
| tMem (l : list token)               (* [r0, #4] *)
| tFlags (i f : bool)                 (* if *)
| tSpecial (y : Z).                   (* APSR_nzcvq *)

(** The tokens of an operand of an instruction with this immediate: a zero may be hidden. *)
Fixpoint tokens_of (imm : Z) (o : operand) : list token :=
  match o with
  | RegOp r bang => [tReg r bang]
  | ReglistOp l => [tList (bv l)]
  | ImmOp v hide => if (v =? 0) && hide then [] else [tImm v]
  | ImmRefOp => [tImm imm]
  | LabelOp off => [tLabel off]
  | ShiftRotateOp ty n => if sr_eqb ty SR_None then [] else [tShift ty n]
  | BarrierOp v => [if v =? 15 then tSystem else tImm v]
  | MemOp l => [tMem (flat_map (tokens_of imm) l)]
  | CpsOp i f => [tFlags i f]
  | SpecialOp y mask => [tSpecial (bv y)]
  end.
Definition tokens (i : insn) : list token :=
  flat_map (tokens_of (match a_imm32 (i_attrs i) with Some b => bv b | None => 0 end)) (i_operands i).

(** ** What it says *)
Definition said := option (bool * klass * list item).
Definition narrow (k : klass) (l : list item) : said := Some (false, k, l).
Definition wide (k : klass) (l : list item) : said := Some (true, k, l).

(** Data instructions: two or three registers, or an immediate at the end; with two operands
    the first register is also the first source. *)
Definition arith (sf : setflags) (carry sub : bool) (ts : list token) : said :=
  let rest := [Flags sf; Carry carry; Sub sub] in
  match ts with
  | [tReg d false; tReg n false; tReg m false] => narrow AddSub ([D d; N n; M m] ++ rest)
  | [tReg d false; tReg m false] => narrow AddSub ([D d; N d; M m] ++ rest)
  | [tReg d false; tReg n false; tImm v] => narrow AddSub ([D d; N n; Imm v] ++ rest)
  | [tReg d false; tImm v] => narrow AddSub ([D d; N d; Imm v] ++ rest)
  | _ => None
  end.
Definition logic (k : klass) (op : list item) (ts : list token) : said :=
  match ts with
  | [tReg d false; tReg m false] => narrow k ([D d; N d; M m; Flags NotInITBlock] ++ op)
  | _ => None
  end.
Definition shifts (ty : srtype) (ts : list token) : said :=
  match ts with
  | [tReg d false; tReg m false] => narrow ShiftOp [D d; N d; M m; Flags NotInITBlock; Ty ty]
  | [tReg d false; tReg m false; tImm v] => narrow ShiftOp [D d; N m; ShN v; Flags NotInITBlock; Ty ty]
  | _ => None
  end.
Definition rsb (out : klass -> list item -> said) (sf : setflags) (ts : list token) : said :=
  match ts with
  | [tReg d false; tReg n false; tImm v] => out ReverseSubtract [D d; N n; Flags sf; Imm v]
  | _ => None
  end.
Definition mul (out : klass -> list item -> said) (sf : setflags) (ts : list token) : said :=
  match ts with
  | [tReg d false; tReg n false; tReg m false] => out Multiply [D d; N n; M m; Flags sf]
  | _ => None
  end.
(** A plain copy sets the flags as [sf] says, a copy of an immediate as [sf'] says. *)
Definition moves (out : klass -> list item -> said) (sf sf' : setflags) (ts : list token) : said :=
  match ts with
  | [tReg d false; tReg m false] => out Move [D d; M m; Flags sf; Neg false]
  | [tReg d false; tImm v] => out Move [D d; Imm v; Flags sf'; Neg false]
  | _ => None
  end.
Definition negated (ts : list token) : said :=
  match ts with
  | [tReg d false; tReg m false] => narrow Move [D d; M m; Flags NotInITBlock; Neg true]
  | _ => None
  end.
Definition negated_w (sf : setflags) (ts : list token) : said :=
  match ts with
  | [tReg d false; tReg m false; tShift ty n] => wide ShiftedMoveNegate [D d; M m; Flags sf; ShT ty; ShN n]
  | _ => None
  end.
Definition extends (out : klass -> list item -> said) (w : Z) (sgn : bool) (ts : list token) : said :=
  match ts with
  | [tReg d false; tReg m false] => out Extend [D d; M m; Rot 0; Flags Never; Wid w; Sgn sgn]
  | [tReg d false; tReg m false; tShift SR_ROR n] => out Extend [D d; M m; Rot n; Flags Never; Wid w; Sgn sgn]
  | _ => None
  end.
Definition reverses (out : klass -> list item -> said) (w : Z) (sgn : bool) (ts : list token) : said :=
  match ts with
  | [tReg d false; tReg m false] => out ByteReverse [D d; M m; Wid w; Sgn sgn]
  | _ => None
  end.
(** Comparing with an immediate: cmn has this only with four bytes. *)
Definition compares (out_r out_i : klass -> list item -> said) (neg : bool) (ts : list token) : said :=
  match ts with
  | [tReg n false; tReg m false] => out_r Compare [N n; M m; Neg neg]
  | [tReg n false; tImm v] => out_i Compare [N n; Imm v; Neg neg]
  | _ => None
  end.
Definition tests (ts : list token) : said :=
  match ts with [tReg n false; tReg m false] => narrow Test [N n; M m; ShT SR_None; ShN 0] | _ => None end.
Definition tests_w (ts : list token) : said :=
  match ts with
  | [tReg n false; tReg m false] => wide Test [N n; M m; ShT SR_LSL; ShN 0]
  | [tReg n false; tReg m false; tShift ty v] => wide Test [N n; M m; ShT ty; ShN v]
  | _ => None
  end.
(** Memory: [[n]], [[n, #v]] and [[n, m]] with two bytes; [[n, m, LSL #v]] with four; relative
    to the pc with a signed distance. *)
Definition literal (out : klass -> list item -> said) (t v size : Z) (sgn : bool) : said :=
  out LoadLiteral [T t; Add (0 <=? v); Imm (Z.abs v); Mem size; Sgn sgn].
Definition access (k : klass) (size : Z) (sgn : bool) (ts : list token) : said :=
  let rest := [Idx true; SpecIsa.Add true; Wb false; Mem size; Sgn sgn] in
  match ts with
  | [tReg t false; tMem [tReg n false]] => narrow k ([T t; N n; Imm 0] ++ rest)
  | [tReg t false; tMem [tReg n false; tImm v]] =>
      if n =? 15 then literal narrow t v size sgn else narrow k ([T t; N n; Imm v] ++ rest)
  | [tReg t false; tMem [tReg n false; tReg m false]] => narrow k ([T t; N n; M m; ShT SR_None; ShN 0] ++ rest)
  | _ => None
  end.
Definition access_w (k : klass) (size : Z) (sgn : bool) (ts : list token) : said :=
  match ts with
  | [tReg t false; tMem [tReg n false]] => literal wide t 0 size sgn
  | [tReg t false; tMem [tReg n false; tImm v]] => literal wide t v size sgn
  | [tReg t false; tMem [tReg n false; tReg m false; tShift ty v]] =>
      wide k [T t; N n; M m; ShT ty; ShN v; Idx true; SpecIsa.Add true; Wb false; Mem size; Sgn sgn]
  | _ => None
  end.
Definition stack (out : klass -> list item -> said) (k : klass) (ts : list token) : said :=
  match ts with [tList v] => out k [Regs v] | _ => None end.
Definition multiple (out : klass -> list item -> said) (k : klass) (ts : list token) : said :=
  match ts with [tReg n bang; tList v] => out k [N n; Regs v; Wb bang] | _ => None end.
(** Going elsewhere.  A distance below zero is not kept as it is (C47). *)
Definition jumps (out : klass -> list item -> said) (link : bool) (cond : Z) (ts : list token) : said :=
  match ts with [tLabel off] => out Branch [Link link; Cond cond; Delta 0; Imm (flipped off)] | _ => None end.
Definition jumps_to (link : bool) (delta : Z) (ts : list token) : said :=
  match ts with [tReg m false] => narrow Branch [M m; Link link; Cond 15; Delta delta] | _ => None end.
Definition address (ts : list token) : said :=
  match ts with [tReg d false; tLabel off] => narrow AddressToRegister [D d; Add true; Imm off] | _ => None end.
(** The rest. *)
Definition plain (ts : list token) : said := match ts with [] => narrow Instruction [] | _ => None end.
Definition number (out : klass -> list item -> said) (ts : list token) : said :=
  match ts with [tImm v] => out Instruction [Imm v] | _ => None end.
Definition barrier (ts : list token) : said := match ts with [tSystem] | [tImm _] => wide Instruction [] | _ => None end.
Definition cps (enable : bool) (ts : list token) : said :=
  match ts with [tFlags i f] => narrow ChangeProcessorState [En enable; Pri i; Flt f] | _ => None end.
Definition mrs (ts : list token) : said :=
  match ts with [tReg d false; tSpecial y] => wide MoveFromSpecial [D d; Sys y] | _ => None end.
Definition msr (ts : list token) : said :=
  match ts with [tSpecial y; tReg n false] => wide MoveToSpecial [N n; Sys y] | _ => None end.

Definition mnemonics : list (string * (list token -> said)) :=
  [("nop", plain); ("yield", plain); ("wfe", plain); ("wfi", plain); ("sev", plain);
   ("bkpt", number narrow); ("svc", number narrow); ("udf", number narrow); ("udf.w", number wide);
   ("isb", barrier); ("dmb", barrier); ("dsb", barrier); ("cpsie", cps true); ("cpsid", cps false); ("mrs", mrs); ("msr", msr);
   ("add", arith Never false false); ("sub", arith Never false true);
   ("adds", arith NotInITBlock false false); ("subs", arith NotInITBlock false true);
   ("adcs", arith NotInITBlock true false); ("sbcs", arith NotInITBlock true true);
   ("ands", logic BitOp [Op OpAnd]); ("eors", logic BitOp [Op OpXor]); ("orrs", logic BitOp [Op OpOr]); ("bics", logic BitClear []);
   ("lsls", shifts SR_LSL); ("lsrs", shifts SR_LSR); ("asrs", shifts SR_ASR); ("rors", shifts SR_ROR);
   ("rsbs", rsb narrow NotInITBlock); ("rsb.w", rsb wide Never); ("rsbs.w", rsb wide Always);
   ("muls", mul narrow NotInITBlock); ("mul", mul wide Never);
   ("mov", moves narrow Never Never); ("movs", moves narrow Always NotInITBlock); ("mov.w", moves wide Never Never);
   ("movs.w", moves wide Always Always); ("movw", moves wide Never Never);
   ("mvns", negated); ("mvn.w", negated_w Never); ("mvns.w", negated_w Always);
   ("uxtb", extends narrow 8 false); ("uxth", extends narrow 16 false); ("sxtb", extends narrow 8 true); ("sxth", extends narrow 16 true);
   ("uxtb.w", extends wide 8 false); ("uxth.w", extends wide 16 false); ("sxtb.w", extends wide 8 true); ("sxth.w", extends wide 16 true);
   ("rev", reverses narrow 4 false); ("rev16", reverses narrow 2 false); ("revsh", reverses narrow 2 true);
   ("rev.w", reverses wide 4 false); ("rev16.w", reverses wide 2 false); ("revsh.w", reverses wide 2 true);
   ("cmp", compares narrow narrow true); ("cmn", compares narrow wide false); ("cmp.w", compares wide wide true);
   ("tst", tests); ("tst.w", tests_w);
   ("ldr", access Load 32 false); ("ldrh", access Load 16 false); ("ldrb", access Load 8 false);
   ("ldrsh", access Load 16 true); ("ldrsb", access Load 8 true);
   ("str", access Store 32 false); ("strh", access Store 16 false); ("strb", access Store 8 false);
   ("ldr.w", access_w Load 32 false); ("ldrh.w", access_w Load 16 false); ("ldrb.w", access_w Load 8 false);
   ("ldrsh.w", access_w Load 16 true); ("ldrsb.w", access_w Load 8 true);
   ("str.w", access_w Store 32 false); ("strh.w", access_w Store 16 false); ("strb.w", access_w Store 8 false);
   ("push", stack narrow Push); ("pop", stack narrow Pop); ("push.w", stack wide Push); ("pop.w", stack wide Pop);
   ("ldm", multiple narrow LoadMultiple); ("stm", multiple narrow StoreMultiple);
   ("ldm.w", multiple wide LoadMultiple); ("stm.w", multiple wide StoreMultiple);
   ("b", jumps narrow false 15); ("bl", jumps wide true 15); ("bx", jumps_to false 0); ("blx", jumps_to true (-2));
   ("adr", address)] ++
  map (fun c => (append "b" (condition c), jumps narrow false c)) (py_range 14).

Fixpoint reading_in (t : list (string * (list token -> said))) (m : string) (ts : list token) : said :=
  match t with
  | [] => None
  | (m', f) :: t' => if String.eqb m m' then f ts else reading_in t' m ts
  end.
Definition reading (m : string) (ts : list token) : said := reading_in mnemonics m ts.

(** ** Reading a line *)
(** Up to a character; without the blanks at the end, or at the start. *)
Fixpoint before (c : ascii) (s : string) : string :=
  match s with
  | EmptyString => ""
  | String a s' => if Ascii.eqb a c then "" else String a (before c s')
  end.
Fixpoint without_end (s : string) : string :=
  match s with
  | EmptyString => ""
  | String a s' =>
    match without_end s' with
    | EmptyString => if Ascii.eqb a " " then "" else String a ""
    | t => String a t
    end
  end.
Fixpoint without_start (s : string) : string :=
  match s with
  | String " " s' => without_start s'
  | _ => s
  end.
Fixpoint skipped (n : nat) (s : string) : string :=
  match n, s with
  | S n', String _ s' => skipped n' s'
  | _, _ => s
  end.
(** Cut at the commas that are not between brackets. *)
Definition nesting (c : ascii) : Z :=
  if Ascii.eqb c "[" || Ascii.eqb c "{" then 1 else if Ascii.eqb c "]" || Ascii.eqb c "}" then -1 else 0.
Fixpoint pieces (depth : Z) (s : string) : list string :=
  match s with
  | EmptyString => [""]
  | String a s' =>
    if Ascii.eqb a "," && (depth =? 0) then "" :: pieces depth s'
    else match pieces (depth + nesting a) s' with p :: l => String a p :: l | [] => [] end
  end.
Fixpoint all {A} (l : list (option A)) : option (list A) :=
  match l with
  | [] => Some []
  | Some x :: l' => option_map (cons x) (all l')
  | None :: _ => None
  end.
Definition read_list (f : string -> option token) (s : string) : option (list token) :=
  if String.eqb s "" then Some [] else all (map f (map without_start (pieces 0 s))).
(** A decimal number with or without a sign. *)
Definition read_number (s : string) : Z :=
  let digits t := be_number 10 (map char_digit (chars t)) in
  match s with
  | String "-" t => - digits t
  | String "+" t => digits t
  | _ => digits s
  end.
(** Names: registers, special registers, flags. *)
Definition names : list (string * token) :=
  [("sy", tSystem); ("i", tFlags true false); ("f", tFlags false true); ("if", tFlags true true)] ++
  flat_map (fun n => [(reg_name n, tReg n false); (reg_name n +++ "!", tReg n true)]) (py_range 16) ++
  flat_map (fun y => map (fun k => (special_name y +++ mask_suffix k, tSpecial y)) (py_range 4)) (py_range 4) ++
  map (fun y => (special_name y, tSpecial y)) [5; 6; 7; 8; 9; 16; 17; 18; 19; 20].
Definition read_name (s : string) : option token :=
  option_map snd (find (fun p => String.eqb (fst p) s) names).
Definition read_shift (name amount : string) : option token :=
  option_map (fun ty => tShift ty (read_number amount))
    (find (fun ty => String.eqb (shift_name ty +++ " ") name) [SR_LSL; SR_LSR; SR_ASR; SR_ROR; SR_RRX]).
Definition read_atom (s : string) : option token :=
  match s with
  | String "#" t => Some (tImm (read_number t))
  | String "." t => Some (tLabel (read_number t - 4))
  | String "{" _ => option_map tList (read_reglist s)
  | _ => match cut "#" s with [name; amount] => read_shift name amount | _ => read_name s end
  end.
Definition read_operand (s : string) : option token :=
  match s with
  | String "[" t => option_map tMem (read_list read_atom (before "]" t))
  | _ => read_atom s
  end.
(** What stands between the columns for the bytes and the comment. *)
Definition middle (line : string) : string := without_end (before ";" (skipped 13 line)).
Definition understood (line : string) : said :=
  let s := middle line in
  let m := before " " s in
  match read_list read_operand (without_start (skipped (String.length m) s)) with
  | Some ts => reading m ts
  | None => None
  end.

(** What is printed does not tell: adr.w with the label before or after it, and, on Python 3,
    whether mov.w sets the flags. *)
Definition unclear (py : pyver) (i : insn) : bool :=
  String.eqb (i_mnemonic i) "adr.w" ||
  match py with Py2 => false | Py3 => String.eqb (i_mnemonic i) "movs.w" end.

(** An instruction object with this reading, and what its execution does to the machine. *)
Definition built (w : bool) (k : klass) (l : list item) : insn := mkinsn "" 0 w 0 k [] (attributes l).
Definition does (py : pyver) (c : cpu) (i : insn) : cpu * res unit :=
  let (s, r) := execute py c i in (s_cpu s, r).
