(** * Model of the class DecoderTree of decoder.py as an object

    [DecoderModel.v] has the trees for a given list of decoders; here decoders are added to
    the object over time and the trees are built on request.  A method that raises leaves
    the object as it is, except that [build] replaces the trees one after the other. *)
From Verif Require Export DecoderModel.

Section Registry.
  Context {H : Type}.
  Variable call : pyver -> H -> insn -> list (string * bs) -> res insn.

  (** decoder.py:95-99; [None] is Python's None *)
  Record registry := mkregistry {
    rg_decoders16 : list (decoder H); rg_decoders32 : list (decoder H);
    rg_tree16 : option (tree H); rg_tree32 : option (tree H) }.
  Definition registry_new : registry := mkregistry [] [] None None.

  (** decoder.py:101-105 *)
  Definition add_decoder (d : decoder H) (o : registry) : registry :=
    if d_is32 d then mkregistry (rg_decoders16 o) (rg_decoders32 o ++ [d]) (rg_tree16 o) (rg_tree32 o)
    else mkregistry (rg_decoders16 o ++ [d]) (rg_decoders32 o) (rg_tree16 o) (rg_tree32 o).

  (** decoder.py:107-109, with fuel for the two calls *)
  Definition registry_build (o : registry) : registry * res unit :=
    let fuel := S (List.length (rg_decoders16 o) + List.length (rg_decoders32 o)) in
    match build_tree fuel (rg_decoders16 o) with
    | Err e => (o, Err e)
    | Ok t16 =>
      let o := mkregistry (rg_decoders16 o) (rg_decoders32 o) (Some t16) (rg_tree32 o) in
      match build_tree fuel (rg_decoders32 o) with
      | Err e => (o, Err e)
      | Ok t32 => (mkregistry (rg_decoders16 o) (rg_decoders32 o) (rg_tree16 o) (Some t32), Ok tt)
      end
    end.

  (** decoder.py:128-144 for the value of [self._tree16] or [self._tree32]: [None.mask] is
      an AttributeError *)
  Definition opt_decode (py : pyver) (t : option (tree H)) (word address : Z) : option (tree H) * res insn :=
    match t with
    | Some t => let '(t', r) := tree_decode call py t word address in (Some t', r)
    | None => (None, Err AttributeError)
    end.

  (** decoder.py:111-144 *)
  Definition registry_decode (py : pyver) (data : list Z) (address : Z) (o : registry) : registry * res insn :=
    if negb (2 <=? Z.of_nat (List.length data)) then (o, Err AssertionError) else
    match bytes_to_le16 data 0 with
    | Err e => (o, Err e)
    | Ok hw1 =>
      if is_32bit_prefix hw1 then
        if Z.of_nat (List.length data) <? 4 then (o, Err UndefinedInstructionError) else
        match bytes_to_le16 data 2 with
        | Err e => (o, Err e)
        | Ok hw2 =>
          let '(t, r) := opt_decode py (rg_tree32 o) (Z.lor hw1 (Z.shiftl hw2 16)) address in
          (mkregistry (rg_decoders16 o) (rg_decoders32 o) (rg_tree16 o) t, r)
        end
      else
        let '(t, r) := opt_decode py (rg_tree16 o) hw1 address in
        (mkregistry (rg_decoders16 o) (rg_decoders32 o) t (rg_tree32 o), r)
    end.

  (** decoder.py:272-276: the decorator; [Decoder(...)] may raise *)
  Definition registry_instr (handler : H) (mnemonic : string) (k : klass) (spec : string) (spec2 : option string)
      (kwargs : list kwarg) (o : registry) : registry * res unit :=
    match make_decoder handler mnemonic k spec spec2 kwargs with
    | Ok d => (add_decoder d o, Ok tt)
    | Err e => (o, Err e)
    end.
End Registry.
Arguments registry : clear implicits.
