(** * Vocabulary for words that no decoder takes *)
From Verif Require Import DecoderModel SpecDecoder SpecIsa.

(** The fixed bits of a format: which, and their values. *)
Definition fixed_of {H} (d : decoder H) : Z * Z := (d_mask d, d_match d).
Definition fixed_in (text : string) : Z * Z :=
  fold_right (fun '(p, c) '(mask, value) =>
    match c with
    | "0"%char => (mask + 2 ^ p, value)
    | "1"%char => (mask + 2 ^ p, value + 2 ^ p)
    | _ => (mask, value)
    end) (0, 0) (placed text).

(** The bits [m], not none, are fixed in all the formats [l], which do not have the same values
    there.  There are no other bits that are fixed in all of them. *)
Definition told_apart_by (l : list (Z * Z)) (m : Z) : Prop :=
  m <> 0 /\ (forall k, Z.testbit m k = true <-> 0 <= k /\ forall p, In p l -> Z.testbit (fst p) k = true) /\
  exists p q, In p l /\ In q l /\ Z.land (snd p) m <> Z.land (snd q) m.

(** Looking for the word [w] among the formats [l], of which none takes it, ends with the
    exception [e]: while the formats can be told apart, those that agree with the word are
    kept; it is an AttributeError if there are none. *)
Inductive gives_up (w : Z) : list (Z * Z) -> exc -> Prop :=
| up_end : forall l, (forall m, ~ told_apart_by l m) -> gives_up w l UndefinedInstructionError
| up_none : forall l m, told_apart_by l m -> (forall p, In p l -> Z.land (snd p) m <> Z.land w m) ->
    gives_up w l AttributeError
| up_some : forall l m e, told_apart_by l m -> (exists p, In p l /\ Z.land (snd p) m = Z.land w m) ->
    gives_up w (filter (fun p => Z.land (snd p) m =? Z.land w m) l) e -> gives_up w l e.
