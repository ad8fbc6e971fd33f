(** * What operands of any content are printed as *)
From Verif Require Import FormatModel SpecBits SpecFormat.
Local Open Scope string_scope.
Local Open Scope list_scope.
Local Open Scope Z_scope.
Local Open Scope bool_scope.

(** The names of all registers that have a number. *)
Definition any_reg_name (n : Z) : option string :=
  if (0 <=? n) && (n <? 16) then Some (reg_name n)
  else if (64 <=? n) && (n <? 96) then
    nth_error ["s0"; "s1"; "s2"; "s3"; "s4"; "s5"; "s6"; "s7"; "s8"; "s9"; "s10"; "s11"; "s12"; "s13"; "s14"; "s15";
      "s16"; "s17"; "s18"; "s19"; "s20"; "s21"; "s22"; "s23"; "s24"; "s25"; "s26"; "s27"; "s28"; "s29"; "s30"; "s31"]
      (Z.to_nat (n - 64))
  else
    match find (fun p => fst p =? n)
      [(16, "xpsr"); (17, "msp"); (18, "psp"); (-1, "primask"); (-2, "basepri"); (-3, "faultmask"); (-4, "control"); (33, "fpscr")] with
    | Some (_, s) => Some s
    | None => None
    end.

(** The text of a run of registers, of several. *)
Definition run_name (r : Z * Z) : option string :=
  let '(s, e) := r in
  if s =? e then any_reg_name s
  else match any_reg_name s, any_reg_name e with Some a, Some b => Some (a +++ "-" +++ b) | _, _ => None end.
Fixpoint run_names (l : list (Z * Z)) : option (list string) :=
  match l with
  | [] => Some []
  | r :: l' => match run_name r, run_names l' with Some t, Some ts => Some (t :: ts) | _, _ => None end
  end.

(** Operands formatted one after the other, each starting from what the one before left. *)
Inductive in_turn : formatter -> list operand -> res (list operand * formatter * list string) -> Prop :=
| turn_nil f : in_turn f [] (Ok ([], f, []))
| turn_stop f o l e : format_operand f o = Err e -> in_turn f (o :: l) (Err e)
| turn_late f o o' f' s l e : format_operand f o = Ok (o', f', s) -> in_turn f' l (Err e) -> in_turn f (o :: l) (Err e)
| turn_none f o o' f' l l' f'' ss : format_operand f o = Ok (o', f', None) -> in_turn f' l (Ok (l', f'', ss)) ->
    in_turn f (o :: l) (Ok (o' :: l', f'', ss))
| turn_text f o o' f' s l l' f'' ss : format_operand f o = Ok (o', f', Some s) -> in_turn f' l (Ok (l', f'', ss)) ->
    in_turn f (o :: l) (Ok (o' :: l', f'', s :: ss)).
