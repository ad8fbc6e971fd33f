(** * Model of the debugging output of decoder.py

    [DecoderTree.dump] and [Decoder.__repr__].  The output is a list of lines; [line_text]
    has the text of each.  The order of dictionaries is the order of insertion, as in
    Python 3.7; Python 2 does not say which it is. *)
From Verif Require Export RegistryModel.

Section Dump.
  Context {H : Type}.

  (** A line printed by decoder.py:178-191 *)
  Inductive dline :=
  | Heading (s : string)
  | MaskLine (depth : nat) (mask : Z)
  | DecoderLine (depth i : nat) (d : decoder H)
  | KeyLine (depth i : nat) (k : Z).

  (** decoder.py:186-187 *)
  Fixpoint decoder_lines (depth i : nat) (ds : list (decoder H)) : list dline :=
    match ds with
    | [] => []
    | d :: ds' => DecoderLine depth i d :: decoder_lines depth (S i) ds'
    end.

  (** decoder.py:183-191: the lines printed, and how it ended.  A list has no [mask]; the
      dictionaries of Python 3 have no [iterkeys]. *)
  Fixpoint dump_tree (py : pyver) (depth : nat) (t : tree H) : list dline * res unit :=
    match t with
    | EmptyList => ([], Err AttributeError)
    | Leaf ds => (MaskLine depth 0 :: decoder_lines depth 0 ds, Ok tt)
    | Node mask children =>
      match py with
      | Py3 => ([MaskLine depth mask], Err AttributeError)
      | Py2 =>
        let fix go (i : nat) (ch : list (Z * tree H)) : list dline * res unit :=
          match ch with
          | [] => ([], Ok tt)
          | (k, t') :: ch' =>
            match dump_tree py (S (S depth)) t' with
            | (l, Err e) => (KeyLine depth i k :: l, Err e)
            | (l, Ok _) => let '(l', r) := go (S i) ch' in (KeyLine depth i k :: l ++ l', r)
            end
          end in
        let '(l, r) := go O children in (MaskLine depth mask :: l, r)
      end
    end.

  (** decoder.py:176-191; with a tree of None the method calls itself with None *)
  Fixpoint dump (fuel : nat) (py : pyver) (o : registry H) (t : option (tree H)) : list dline * res unit :=
    match fuel with
    | O => ([], Err OutOfFuel)
    | S f =>
      match t with
      | Some t => dump_tree py 0 t
      | None =>
        match dump f py o (rg_tree16 o) with
        | (l, Err e) => (Heading "16-bit instructions:" :: l, Err e)
        | (l, Ok _) =>
          let '(l', r) := dump f py o (rg_tree32 o) in
          (Heading "16-bit instructions:" :: l ++ Heading "32-bit instructions:" :: l', r)
        end
      end
    end.

  (** decoder.py:240-241, with the number [id(self)]; [%s] of [dict.keys()] *)
  Definition keys_text (py : pyver) (names : list string) : string :=
    let l := ("[" ++ join ", " (map (fun n => "'" ++ n ++ "'") names) ++ "]")%string in
    match py with Py2 => l | Py3 => ("dict_keys(" ++ l ++ ")")%string end.
  Definition decoder_repr (py : pyver) (id : Z) (d : decoder H) : string :=
    ("<Decoder@0x" ++ fmt_x id ++ " " ++ d_mnemonic d ++ " " ++ fmt_x (d_mask d) ++ "/" ++ fmt_x (d_match d)
     ++ " " ++ keys_text py (map fst (d_fields d)) ++ ">")%string.

  Fixpoint indent (n : nat) : string := match n with O => EmptyString | S n' => ("  " ++ indent n')%string end.
  (** decoder.py:178-190: [print] separates its arguments by a blank *)
  Definition line_text (py : pyver) (id : decoder H -> Z) (l : dline) : string :=
    match l with
    | Heading s => s
    | MaskLine depth mask => (indent depth ++ " 0x" ++ fmt_x mask ++ " =>")%string
    | DecoderLine depth i d => (indent (S depth) ++ " " ++ fmt_d (Z.of_nat i) ++ " : " ++ decoder_repr py (id d) d)%string
    | KeyLine depth i k => (indent (S depth) ++ " " ++ fmt_d (Z.of_nat i) ++ " : 0x" ++ fmt_x k)%string
    end.
End Dump.
Arguments dline : clear implicits.
