(** * Vocabulary for the statements about DecoderTree.dump *)
From Coq Require Import Permutation.
From Verif Require Import DumpModel SpecDecoder SpecApi.

(** The decoders that some lines show, in order. *)
Definition listed {H} (l : list (dline H)) : list (decoder H) :=
  flat_map (fun x => match x with DecoderLine _ _ d => [d] | _ => [] end) l.
Definition leaf {H} (t : tree H) : bool := match t with Leaf _ => true | _ => false end.
(** A stored [[]] somewhere in the tree: what a lookup of a missing key leaves behind. *)
Inductive holed {H} : tree H -> Prop :=
| holed_here : holed EmptyList
| holed_below : forall m ch k t, In (k, t) ch -> holed t -> holed (Node m ch).

(** [m] has the bits that all the masks have. *)
Definition shared_mask {H} (ds : list (decoder H)) (m : Z) : Prop :=
  forall k, Z.testbit m k = true <-> (0 <= k)%Z /\ forall d, In d ds -> Z.testbit (d_mask d) k = true.
(** The lines [l] show the decoders [ds], as an outline: either all of them under the mask 0,
    numbered from 0, or blocks under the mask that all of them share, numbered from 0; a
    block shows, two levels deeper, the decoders that have its key in these bits. *)
Inductive outline {H} (depth : nat) : list (decoder H) -> list (dline H) -> Prop :=
| outline_leaf : forall ds,
    outline depth ds (MaskLine depth 0 :: map (fun '(i, d) => DecoderLine depth i d) (combine (seq 0 (List.length ds)) ds))
| outline_node : forall m ks ds l, m <> 0%Z -> shared_mask ds m -> (2 <= List.length ks)%nat -> NoDup ks -> blocks depth m 0 ks ds l ->
    outline depth ds (MaskLine depth m :: l)
with blocks {H} (depth : nat) : Z -> nat -> list Z -> list (decoder H) -> list (dline H) -> Prop :=
| blocks_nil : forall m i, blocks depth m i [] [] []
| blocks_cons : forall m i k ks ds ds' l l', ds <> [] -> Forall (fun d => Z.land (d_match d) m = k) ds -> outline (S (S depth)) ds l ->
    blocks depth m (S i) ks ds' l' -> blocks depth m i (k :: ks) (ds ++ ds') (KeyLine depth i k :: l ++ l').
