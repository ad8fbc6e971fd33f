(** * Model of /repo/cmdis/decoder.py

    Everything is generic in the type [H] of handlers and in [call], which says
    what calling a handler does.  The tree as an object, with decoding before [build]
    was called, is in RegistryModel.v.  [DecoderTree.dump] and
    [Decoder.__repr__] are in DumpModel.v. *)
From Verif Require Export InsnModel.

(** ** parse_spec *)

(** An element of the list returned by [parse_spec]: a fixed bit, a pair of name
    and number of bits, or a pair of name and bitstring. *)
Inductive fitem := FBit (b : Z) | FField (name : string) (size : Z) | FConst (name : string) (value : bs).

(** The local variables of decoder.py:296-303; [result] is kept reversed. *)
Record pstate := mkps {
  p_state : Z; p_ident : list ascii; p_bitcount : list ascii; p_bits : list ascii;
  p_expecting : bool; p_result : list fitem }.

Definition is_bit_char (c : ascii) : bool := (Ascii.eqb c "0" || Ascii.eqb c "1")%bool.
Definition nonempty {A} (l : list A) : bool := match l with [] => false | _ => true end.

(** decoder.py:310-311, 316-317: [if ident: result.append((ident, 1))] *)
Definition flush (ident : list ascii) (result : list fitem) : list fitem :=
  if nonempty ident then FField (of_chars ident) 1 :: result else result.

(** decoder.py:308-326, state 0 *)
Definition step0 (p : pstate) (c : ascii) : res pstate :=
  if is_bit_char c then
    Ok (mkps 0 [] (p_bitcount p) (p_bits p) false
          (FBit (digit_val c) :: flush (p_ident p) (p_result p)))
  else if is_letter c then
    Ok (mkps 1 [c] (p_bitcount p) (p_bits p) (p_expecting p) (flush (p_ident p) (p_result p)))
  else if (Ascii.eqb c "(" && p_expecting p)%bool then
    Ok (mkps 2 (p_ident p) (p_bitcount p) (p_bits p) (p_expecting p) (p_result p))
  else if is_ws c then Ok p
  else Err ValueError.

(** decoder.py:304-385, one iteration.  In state 1 the code switches to state 0
    and looks at the same character again (lines 334-338); the model does both at
    once. *)
Definition pstep (p : pstate) (c : ascii) : res pstate :=
  match p_state p with
  | 0 => step0 p c
  | 1 =>
    if Ascii.eqb c "(" then Ok (mkps 2 (p_ident p) (p_bitcount p) (p_bits p) (p_expecting p) (p_result p))
    else if Ascii.eqb c "=" then Ok (mkps 5 (p_ident p) (p_bitcount p) [] (p_expecting p) (p_result p))
    else if negb (is_letter c || is_digit c) then
      step0 (mkps 0 (p_ident p) (p_bitcount p) (p_bits p) true (p_result p)) c
    else Ok (mkps 1 (p_ident p ++ [c]) (p_bitcount p) (p_bits p) (p_expecting p) (p_result p))
  | 2 =>
    if is_digit c then Ok (mkps 3 (p_ident p) [c] (p_bits p) (p_expecting p) (p_result p))
    else if Ascii.eqb c ")" then Ok (mkps 0 (p_ident p) ["1"%char] (p_bits p) (p_expecting p) (p_result p))
    else if is_ws c then Ok p
    else Err ValueError
  | 3 =>
    if Ascii.eqb c ")" then
      Ok (mkps 0 [] [] (p_bits p) (p_expecting p)
            (FField (of_chars (p_ident p)) (parse_dec (p_bitcount p)) :: p_result p))
    else if negb (is_digit c) then Ok (mkps 4 (p_ident p) (p_bitcount p) (p_bits p) (p_expecting p) (p_result p))
    else Ok (mkps 3 (p_ident p) (p_bitcount p ++ [c]) (p_bits p) (p_expecting p) (p_result p))
  | 4 =>
    if Ascii.eqb c ")" then
      Ok (mkps 0 [] [] (p_bits p) (p_expecting p)
            (FField (of_chars (p_ident p)) (parse_dec (p_bitcount p)) :: p_result p))
    else if is_ws c then Ok p
    else Err ValueError
  | _ =>
    if is_bit_char c then
      Ok (mkps 5 (p_ident p) (p_bitcount p) (p_bits p ++ [c]) (p_expecting p) (p_result p))
    else
      let* b := bs_init (VStr (of_chars (p_bits p))) None in
      Ok (mkps 0 [] (p_bitcount p) [] (p_expecting p) (FConst (of_chars (p_ident p)) b :: p_result p))
  end.

Fixpoint ploop (p : pstate) (l : list ascii) : res pstate :=
  match l with
  | [] => Ok p
  | c :: l' => let* p' := pstep p c in ploop p' l'
  end.

(** decoder.py:387-395 *)
Definition pfinish (p : pstate) : res (list fitem) :=
  if nonempty (p_ident p) then
    if nonempty (p_bits p) then
      let* b := bs_init (VStr (of_chars (p_bits p))) None in
      Ok (rev (FConst (of_chars (p_ident p)) b :: p_result p))
    else
      let bitcount := if nonempty (p_bitcount p) then p_bitcount p else ["1"%char] in
      Ok (rev (FField (of_chars (p_ident p)) (parse_dec bitcount) :: p_result p))
  else Ok (rev (p_result p)).

(** decoder.py:296-395 *)
Definition parse_spec (spec : string) : res (list fitem) :=
  let* p := ploop (mkps 0 [] [] [] false []) (chars spec) in pfinish p.

(** ** Decoder *)

(** decoder.py:263: a named field is read as [bitstring(word >> i, size)] *)
Definition fields := list (string * (Z * Z)).

(** decoder.py:243-268; the accumulator is (i, mask, match, d) *)
Definition fmt_step (offset : Z) (acc : Z * Z * Z * fields) (f : fitem) : Z * Z * Z * fields :=
  let '(i, mask, mtch, d) := acc in
  match f with
  | FBit b => (i + 1, Z.lor mask (Z.shiftl 1 (i + offset)), Z.lor mtch (Z.shiftl b (i + offset)), d)
  | FConst name v =>
    (i + bw v, Z.lor mask (Z.shiftl (bm v) (i + offset)), Z.lor mtch (Z.shiftl (bs_unsigned v) (i + offset)),
     dict_set String.eqb name (i + offset, bw v) d)
  | FField name size => (i + size, mask, mtch, dict_set String.eqb name (i + offset, size) d)
  end.
Definition process_fmt (fmt : list fitem) (offset : Z) : res (Z * Z * fields) :=
  let '(i, mask, mtch, d) := fold_left (fmt_step offset) fmt (0, 0, 0, []) in
  if i =? 16 then Ok (mask, mtch, d) else Err AssertionError.

Section Decoders.
  Context {H : Type}.

  (** decoder.py:198-218.  [d_fields]: [_attrs]. *)
  Record decoder := mkdec {
    d_handler : H; d_mnemonic : string; d_klass : klass; d_args : list kwarg;
    d_mask : Z; d_match : Z; d_fields : fields; d_is32 : bool }.

  Definition make_decoder (handler : H) (mnemonic : string) (k : klass) (spec : string)
      (spec2 : option string) (kwargs : list kwarg) : res decoder :=
    let* fmt := parse_spec spec in
    let* '(mask, mtch, attrs) := process_fmt (rev fmt) 0 in
    match spec2 with
    | Some s2 =>
      let* fmt2 := parse_spec s2 in
      let* '(mask2, match2, attrs2) := process_fmt (rev fmt2) 16 in
      Ok (mkdec handler mnemonic k kwargs (Z.lor mask mask2) (Z.lor mtch match2)
            (fold_left (fun d kv => dict_set String.eqb (fst kv) (snd kv) d) attrs2 attrs) true)
    | None => Ok (mkdec handler mnemonic k kwargs mask mtch attrs false)
    end.

  (** decoder.py:220-221 *)
  Definition check (d : decoder) (word : Z) : bool := Z.land word (d_mask d) =? d_match d.

  (** [call py h i fields]: what [handler(i, **fields)] does; the instruction
      afterwards. *)
  Variable call : pyver -> H -> insn -> list (string * bs) -> res insn.

  (** decoder.py:223-238 *)
  Definition decode_one (py : pyver) (d : decoder) (word address : Z) : res insn :=
    let* attrs := map_res (fun '(n, (i, size)) =>
      let* x := py_shr word i in let* b := bs_init (VInt x) (Some size) in Ok (n, b)) (d_fields d) in
    let i := new_insn (d_klass d) (d_mnemonic d) word (d_is32 d) in
    let i := set_address address i in
    let i := set_attrs (fun a => fold_left set_kwarg (d_args d) a) i in
    call py (d_handler d) i attrs.

  (** ** The tree *)

  (** decoder.py:69.  [Leaf]: mask 0.  [EmptyList]: the [[]] that the defaultdict
      of children (line 161) stores and returns for a missing key. *)
  Inductive tree := Leaf (ds : list decoder) | Node (mask : Z) (children : list (Z * tree)) | EmptyList.

  (** decoder.py:136-144 *)
  Fixpoint try_decoders (py : pyver) (ds : list decoder) (word address : Z) : res insn :=
    match ds with
    | [] => Err UndefinedInstructionError
    | d :: ds' =>
      if check d word then
        match decode_one py d word address with
        | Err DecodeError => try_decoders py ds' word address
        | r => r
        end
      else try_decoders py ds' word address
    end.

  (** decoder.py:128-144; the tree afterwards is returned too *)
  Fixpoint tree_decode (py : pyver) (t : tree) (word address : Z) : tree * res insn :=
    match t with
    | EmptyList => (t, Err AttributeError)
    | Leaf ds => (t, try_decoders py ds word address)
    | Node mask children =>
      let k := Z.land word mask in
      let fix go (ch : list (Z * tree)) : list (Z * tree) * res insn :=
        match ch with
        | [] => ([(k, EmptyList)], Err AttributeError)
        | (k', t') :: ch' =>
          if k =? k' then let '(t'', r) := tree_decode py t' word address in ((k', t'') :: ch', r)
          else let '(ch'', r) := go ch' in ((k', t') :: ch'', r)
        end in
      let '(children', r) := go children in (Node mask children', r)
    end.

  (** decoder.py:149: stable, descending *)
  Fixpoint insert_by (x : Z * decoder) (l : list (Z * decoder)) : list (Z * decoder) :=
    match l with
    | [] => [x]
    | y :: l' => if fst y <=? fst x then x :: l else y :: insert_by x l'
    end.
  Definition sort_decoders (ds : list decoder) : res (list decoder) :=
    let* keyed := map_res (fun d => let* w := hamming_weight (d_mask d) in Ok (w, d)) ds in
    Ok (map snd (fold_right insert_by [] keyed)).

  (** decoder.py:156 *)
  Definition common_mask (ds : list decoder) : Z :=
    match ds with [] => 0 | d :: ds' => fold_left (fun a d => Z.land a (d_mask d)) ds' (d_mask d) end.

  (** decoder.py:161-163 *)
  Fixpoint add_to_group (k : Z) (d : decoder) (g : list (Z * list decoder)) : list (Z * list decoder) :=
    match g with
    | [] => [(k, [d])]
    | (k', l) :: g' => if k =? k' then (k', l ++ [d]) :: g' else (k', l) :: add_to_group k d g'
    end.
  Definition group_by_match (mask : Z) (ds : list decoder) : list (Z * list decoder) :=
    fold_left (fun g d => add_to_group (Z.land (d_match d) mask) d g) ds [].

  (** decoder.py:146-174, with fuel *)
  Fixpoint build_tree (fuel : nat) (ds : list decoder) : res tree :=
    match fuel with
    | O => Err OutOfFuel
    | S f =>
      let* ds := sort_decoders ds in
      match ds with
      | [] | [_] => Ok (Leaf ds)
      | _ =>
        let mask := common_mask ds in
        if mask =? 0 then Ok (Leaf ds) else
        let children := group_by_match mask ds in
        match children with
        | [(_, l)] => Ok (Leaf l)
        | _ =>
          let* ch := map_res (fun '(k, l) => let* t := build_tree f l in Ok (k, t)) children in
          Ok (Node mask ch)
        end
      end
    end.

  (** decoder.py:96-106: the lists after [add_decoder] of each element in turn *)
  Definition registered16 (ds : list decoder) : list decoder := filter (fun d => negb (d_is32 d)) ds.
  Definition registered32 (ds : list decoder) : list decoder := filter d_is32 ds.

  (** decoder.py:96-110: the two trees *)
  Record dtree := mkdtree { t_16 : tree; t_32 : tree }.
  Definition build (ds : list decoder) : res dtree :=
    let* t16 := build_tree (S (List.length ds)) (registered16 ds) in
    let* t32 := build_tree (S (List.length ds)) (registered32 ds) in
    Ok (mkdtree t16 t32).

  (** decoder.py:93-94, 117 *)
  Definition is_32bit_prefix (hw1 : Z) : bool :=
    existsb (fun p => Z.land hw1 63488 =? p) [63488; 61440; 59392].

  (** decoder.py:112-144 *)
  Definition decode (py : pyver) (t : dtree) (data : list Z) (address : Z) : dtree * res insn :=
    if negb (2 <=? Z.of_nat (List.length data)) then (t, Err AssertionError) else
    match bytes_to_le16 data 0 with
    | Err e => (t, Err e)
    | Ok hw1 =>
      if is_32bit_prefix hw1 then
        if Z.of_nat (List.length data) <? 4 then (t, Err UndefinedInstructionError) else
        match bytes_to_le16 data 2 with
        | Err e => (t, Err e)
        | Ok hw2 =>
          let word := Z.lor hw1 (Z.shiftl hw2 16) in
          let '(t32, r) := tree_decode py (t_32 t) word address in
          (mkdtree (t_16 t) t32, r)
        end
      else
        let '(t16, r) := tree_decode py (t_16 t) hw1 address in
        (mkdtree t16 (t_32 t), r)
    end.
End Decoders.
Arguments decoder : clear implicits.
Arguments tree : clear implicits.
Arguments dtree : clear implicits.
