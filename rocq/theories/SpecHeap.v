(** * Vocabulary for the statements about shared bitstring objects *)
From Verif Require Import HeapModel SpecBits.

(** The value of an operator on bitstrings as values. *)
Definition value_of (op : iop) : bs -> pyval -> res bs :=
  match op with
  | IAdd => bs_add | ISub => bs_sub | IMul => bs_mul | IFloorDiv => bs_floordiv | IMod => bs_mod
  | IShl => bs_lshift | IShr => bs_rshift | IAnd => bs_and | IXor => bs_xor | IOr => bs_or
  end.

(** A heap of well-formed objects in which the references in question exist. *)
Definition heap_ok (h : heap) : Prop := Forall wf h.
Definition live (h : heap) (r : ref) : Prop := (r < List.length h)%nat.
Definition live_val (h : heap) (v : hval) : Prop :=
  match v with HRef r => live h r | HVal v => wf_val v end.

(** What is left alone: every object there was; every one but [x]. *)
Definition untouched (h h' : heap) : Prop := forall r, live h r -> live h' r /\ hget h' r = hget h r.
Definition only (x : ref) (h h' : heap) : Prop :=
  live h' x /\ forall r, live h r -> r <> x -> live h' r /\ hget h' r = hget h r.

(** Operands for which an in-place method answers NotImplemented. *)
Definition unsupported (op : iop) (v : hval) : bool :=
  match op, v with
  | (IAdd | ISub | IMul | IFloorDiv), HVal (VNone | VOther | VSeq _ | VBytearray _ _) => true
  | IMod, HVal (VNone | VOther | VBytearray Py2 _) => true
  | _, _ => false
  end.
