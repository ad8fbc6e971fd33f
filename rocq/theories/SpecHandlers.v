(** * The parameters of the functions of instructions.py that fill in instructions *)
From Coq Require Import ZArith List String.
From Verif Require Import PyBase BitstringModel TableModel.
Import ListNotations.
Local Open Scope list_scope.
Local Open Scope string_scope.

(** As written in instructions.py after [i].  Names defined twice there have two constructors
    each: [mov0] is [H_mov_reg] and [H_movs_reg], [rev] also [H_rev_w], [ldr_literal] also
    [H_ldr_literal_w]. *)
Definition signature (h : hid) : list string :=
  match h with
  | H_adc => ["Rm"; "Rdn"]
  | H_add_imm_t1 => ["imm3"; "Rn"; "Rd"]
  | H_add_imm_t2 => ["Rdn"; "imm8"]
  | H_add_reg_t1 => ["Rm"; "Rn"; "Rd"]
  | H_add_reg_t2 => ["DN"; "Rm"; "Rdn"]
  | H_add_sp_plus_imm_t1 => ["Rd"; "imm8"]
  | H_add_sp_plus_reg_t1 => ["DM"; "Rdm"]
  | H_add_sp_plus_reg_t2 => ["Rm"]
  | H_add_sp_plus_imm_t2 => ["imm7"]
  | H_shift_imm_t1 => ["stype"; "imm5"; "Rm"; "Rd"]
  | H_rsb => ["Rn"; "Rd"]
  | H_rsb_w => ["im"; "S"; "Rn"; "imm3"; "Rd"; "imm8"]
  | H_mul_t1 => ["Rn"; "Rdm"]
  | H_mul_t2 => ["Rn"; "Rd"; "Rm"]
  | H_adr_t1 => ["Rd"; "imm8"]
  | H_adr_t2 => ["im"; "imm3"; "Rd"; "imm8"]
  | H_extend => ["Rm"; "Rd"]
  | H_extend2 => ["Rm"; "rotate"; "Rd"]
  | H_rev => ["Rm"; "Rd"]
  | H_rev_w => ["Rm1"; "Rd"; "Rm2"]
  | H_mov_reg => ["D"; "Rm"; "Rd"]
  | H_movs_reg => ["Rm"; "Rd"]
  | H_mov_reg_t3 => ["S"; "Rd"; "Rm"]
  | H_mov1 => ["Rd"; "imm8"]
  | H_mov2 => ["im"; "S"; "imm3"; "Rd"; "imm8"]
  | H_movw => ["im"; "imm4"; "imm3"; "Rd"; "imm8"]
  | H_mvn => ["Rm"; "Rd"]
  | H_mvnw => ["S"; "imm3"; "Rd"; "imm2"; "type"; "Rm"]
  | H_cmp1 => ["Rn"; "imm8"]
  | H_cmp3 => ["Rm"; "Rn"]
  | H_cmp4 => ["N"; "Rm"; "Rn"]
  | H_cmp2 => ["im"; "Rn"; "imm3"; "imm8"]
  | H_tst => ["Rm"; "Rn"]
  | H_tst_w => ["Rn"; "imm3"; "imm2"; "type"; "Rm"]
  | H_b_t1 => ["cond"; "imm8"]
  | H_b_t2 => ["imm11"]
  | H_bl_t1 => ["S"; "imm10"; "J1"; "J2"; "imm11"]
  | H_blx_t1 => ["Rm"]
  | H_bx_t1 => ["Rm"]
  | H_ldr_str_reg => ["Rm"; "Rn"; "Rt"]
  | H_ldr_str_reg_t2 => ["Rn"; "Rt"; "imm2"; "Rm"]
  | H_ldr_str_imm => ["imm5"; "Rn"; "Rt"]
  | H_ldr_literal => ["Rt"; "imm8"]
  | H_ldr_literal_w => ["U"; "Rt"; "imm12"]
  | H_ldr_str_imm_t2 => ["Rt"; "imm8"]
  | H_push_t1 => ["M"; "reglist"]
  | H_push_t2 => ["M"; "reglist"]
  | H_push_t3 => ["Rt"]
  | H_pop_t1 => ["P"; "reglist"]
  | H_pop_t2 => ["P"; "M"; "reglist"]
  | H_pop_t3 => ["Rt"]
  | H_stm_ldm_t1 => ["Rn"; "reglist"]
  | H_stm_t2 => ["W"; "Rn"; "M"; "reglist"]
  | H_ldm_t2 => ["W"; "Rn"; "P"; "M"; "reglist"]
  | H_cps => ["im"; "I"; "F"]
  | H_bkpt => ["imm8"]
  | H_mrs => ["Rd"; "SYSm"]
  | H_msr => ["Rn"; "mask"; "SYSm"]
  | H_nop => []
  | H_barrier => ["option"]
  | H_udf_t1 => ["imm8"]
  | H_udf_t2 => ["imm4"; "imm12"]
  end.

(** The names of the fields are those of the parameters, in any order. *)
Definition fits (h : hid) (l : list string) : Prop := forall n, In n l <-> In n (signature h).
