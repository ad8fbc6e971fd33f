(** * Vocabulary for further statements about several instructions and about the table *)
From Verif Require Import CpuModel SpecCpu SpecExec SpecIsa.
Local Open Scope bool_scope.
Local Open Scope Z_scope.

(** Register contents [f] with the registers of the list [regs], up to lr, taken from [g]. *)
Definition taken (regs : Z) (g f : Z -> Z) : Z -> Z := fun k =>
  if (0 <=? k) && (k <=? 14) && Z.testbit regs k then g k else f k.

(** The one encoding that cannot be decoded: push.w. *)
Definition push_w : string := "11101001001011010l0rrrrrrrrrrrrr".
