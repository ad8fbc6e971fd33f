(** Property statements; each is proved in AsmThms.v under the same name.
    Written by tools/genprops.py. *)
From Verif Require Import InsnModel ExecModel SpecCpu SpecExec FormatModel SpecArm SpecIsa SpecWhole SpecFormat SpecAsm AsmThms.
Import ListNotations.
Local Open Scope string_scope.
Local Open Scope list_scope.
Local Open Scope Z_scope.

(** C95: the line printed for a decoded instruction is understood, without looking at the
    columns with its bytes or at the comment: what is understood has the size and the class of
    the instruction, and an object constructed from it does to any machine exactly what the
    instruction does.  The mnemonics in [unclear] are excluded. *)
Theorem C95_line_partial : forall py i, from_bytes py i -> unclear py i = false ->
  exists text l, (forall f, text_of f i = Ok text) /\ understood text = Some (i_is32 i, i_klass i, l) /\
    forall c, does py c i = does py c (built (i_is32 i) (i_klass i) l).
Proof. exact C95_line_partial_proof. Qed.
Print Assumptions C95_line_partial.

Example C95_line_partial_ex : exists i l, decode_bytes Py2 [3; 72] 100 = Ok i /\ unclear Py2 i = false /\
  text_of (mkfmt None []) i = Ok "4803         ldr     r0, [pc, #12]   ; 0xc" /\
  understood "4803         ldr     r0, [pc, #12]   ; 0xc" = Some (false, LoadLiteral, l) /\ l = [T 0; Add true; Imm 12; Mem 32; Sgn false] /\
  understood "             bhi     .-6" <> None /\ understood "             bhi     6" = None /\ understood "             foo     r1" = None.
Proof.
  do 2 eexists. split; [vm_compute; reflexivity|]. split; [vm_compute; reflexivity|]. split; [vm_compute; reflexivity|]. split; [vm_compute; reflexivity|].
  split; [reflexivity|]. split; [vm_compute; discriminate|]. split; vm_compute; reflexivity.
Qed.

(** C95: so two decoded instructions whose lines agree between these columns are of the
    same size and do the same to any machine, wherever they are and whatever their encodings. *)
Theorem C95_determined_partial : forall py f i j s t, from_bytes py i -> from_bytes py j -> unclear py i = false ->
  text_of f i = Ok s -> text_of f j = Ok t -> middle s = middle t ->
  i_size i = i_size j /\ i_mnemonic i = i_mnemonic j /\ i_klass i = i_klass j /\ forall c, does py c i = does py c j.
Proof. exact C95_determined_partial_proof. Qed.
Print Assumptions C95_determined_partial.

Example C95_determined_partial_ex : exists i j s t, decode_bytes Py2 [17; 70] 0 = Ok i /\ decode_bytes Py2 [17; 70] 4096 = Ok j /\ i <> j /\ unclear Py2 i = false /\
  text_of (mkfmt None []) i = Ok s /\ text_of (mkfmt None []) j = Ok t /\ middle s = middle t /\ middle s = "mov     r1, r2" /\
  middle "e7fe         b       .+0             ; 0x1000" = middle "e7fe         b       .+0             ; 0x2000".
Proof.
  do 4 eexists. split; [vm_compute; reflexivity|]. split; [vm_compute; reflexivity|]. split; [discriminate|]. split; [vm_compute; reflexivity|].
  split; [vm_compute; reflexivity|]. split; [vm_compute; reflexivity|]. split; [vm_compute; reflexivity|]. split; vm_compute; reflexivity.
Qed.

(** C95 does not hold for adr.w: the same is printed for a label before and after the
    instruction; nor on Python 3 for mov.w with and without setting the flags. *)
Theorem C95_refuted :
  (forall py, exists i j s t, from_bytes py i /\ from_bytes py j /\ (forall f, text_of f i = Ok s) /\ (forall f, text_of f j = Ok t) /\
    middle s = "adr.w   r1, .+8"%string /\ middle t = middle s /\
    reg_after py ex_state i 1 <> reg_after py ex_state j 1) /\
  exists i j s t, from_bytes Py3 i /\ from_bytes Py3 j /\ (forall f, text_of f i = Ok s) /\ (forall f, text_of f j = Ok t) /\
    middle s = "movs.w  r1, #0"%string /\ middle t = middle s /\
    reg_after Py3 ex_state i 16 <> reg_after Py3 ex_state j 16.
Proof. exact C95_refuted_proof. Qed.
Print Assumptions C95_refuted.
