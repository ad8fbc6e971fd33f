(** * Vocabulary for the statements about the disassembler *)
From Verif Require Import DisasmModel SpecBits SpecDecoder SpecIsa SpecWhole.

(** [listing py a data l r]: reading [data] at address [a] gives the instructions [l], one
    after the other, and ends with [r]: normally at the end of the data or in front of
    an undefined rest of less than four bytes, otherwise with the exception of the
    decoder. *)
Inductive listing (py : pyver) : Z -> list Z -> list insn -> res unit -> Prop :=
| listing_end : forall a, listing py a [] [] (Ok tt)
| listing_rest : forall a data, data <> [] -> decode_bytes py data a = Err UndefinedInstructionError ->
    (List.length data < 4)%nat -> listing py a data [] (Ok tt)
| listing_fails : forall a data e, data <> [] -> decode_bytes py data a = Err e ->
    (e = UndefinedInstructionError -> (4 <= List.length data)%nat) -> listing py a data [] (Err e)
| listing_step : forall a data i l r, decode_bytes py data a = Ok i ->
    listing py (a + i_size i) (skipn (Z.to_nat (i_size i)) data) l r -> listing py a data (i :: l) r.

(** Addresses: each instruction starts where the one before it ends. *)
Fixpoint consecutive (a : Z) (l : list insn) : Prop :=
  match l with [] => True | i :: l' => i_address i = a /\ consecutive (a + i_size i) l' end.

(** The tree of the module, after any history of decode calls. *)
Definition module_tree (t : dtree hid) : Prop :=
  exists t0 calls, DECODER_TREE = Ok t0 /\ t = after call_handler t0 calls.

(** Calling [next] several times; before each call other users may decode something. *)
Fixpoint pulls (py : pyver) (t : dtree hid) (g : gen) (others : list (list (pyver * list Z * Z))) : list pulled :=
  match others with
  | [] => []
  | calls :: rest =>
    let '(t', g', p) := disasm_next py (after call_handler t calls) g in p :: pulls py t' g' rest
  end.
(** What the calls of [next] are to give for a listing: its instructions, then its end,
    then nothing more. *)
Definition ending (r : res unit) : pulled := match r with Ok _ => Stops | Err e => Throws e end.
Definition expected (l : list insn) (r : res unit) (n : nat) : list pulled :=
  firstn n (map Yields l ++ ending r :: repeat Stops n).
