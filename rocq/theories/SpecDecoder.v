(** * Vocabulary for the statements about format strings, decoders and the tree *)
From Coq Require Import Permutation Sorted.
From Verif Require Import DecoderModel SpecBits.

(** ** The grammar of decoder.py:280-294 *)

Definition letter (c : ascii) : Prop :=
  let n := nat_of_ascii c in (65 <= n <= 90 \/ 97 <= n <= 122)%nat.
Definition decimal (c : ascii) : Prop := (48 <= nat_of_ascii c <= 57)%nat.
Definition blank (c : ascii) : Prop :=
  In (nat_of_ascii c) [32; 9; 10; 11; 12; 13]%nat.
Definition blanks (l : list ascii) : Prop := Forall blank l.

(** [/[a-zA-Z][a-zA-Z0-9]*/], [/[0-9]+/], [bit+] *)
Definition identifier (l : list ascii) : Prop :=
  match l with [] => False | c :: l' => letter c /\ Forall (fun c => letter c \/ decimal c) l' end.
Definition intlit (l : list ascii) : Prop := l <> [] /\ Forall decimal l.
Definition bitseq (l : list ascii) : Prop := l <> [] /\ Forall bin_char l.

(** Nothing more, or a whitespace character. *)
Definition separated (l : list ascii) : Prop :=
  match l with [] => True | c :: _ => blank c end.

(** [spelled items text]: the text writes the items, whitespace anywhere between
    the tokens; it is needed after a name without width and after a constant. *)
Inductive spelled : list fitem -> list ascii -> Prop :=
| spelled_nil : forall w, blanks w -> spelled [] w
| spelled_bit : forall w c rest l, blanks w -> bin_char c -> spelled rest l ->
    spelled (FBit (bit_of_char c) :: rest) (w ++ [c] ++ l)
| spelled_name : forall w n rest l, blanks w -> identifier n -> separated l -> spelled rest l ->
    spelled (FField (of_chars n) 1 :: rest) (w ++ n ++ l)
| spelled_sized : forall w n w1 w2 k w3 rest l,
    blanks w -> identifier n -> blanks w1 -> blanks w2 -> intlit k -> blanks w3 -> spelled rest l ->
    spelled (FField (of_chars n) (be_number 10 (map char_digit k)) :: rest)
            (w ++ n ++ w1 ++ ["("%char] ++ w2 ++ k ++ w3 ++ [")"%char] ++ l)
| spelled_const : forall w n b rest l, blanks w -> identifier n -> bitseq b -> separated l -> spelled rest l ->
    spelled (FConst (of_chars n) (bits (Z.of_nat (List.length b)) (be_number 2 (map bit_of_char b))) :: rest)
            (w ++ n ++ ["="%char] ++ b ++ l).

(** ** Formats as words *)

Definition item_size (f : fitem) : Z :=
  match f with FBit _ => 1 | FField _ s => s | FConst _ v => bw v end.
(** Value of an item when the named fields have the values [vals]. *)
Definition item_value (vals : string -> Z) (f : fitem) : Z :=
  match f with FBit b => b | FField n s => vals n mod 2 ^ s | FConst _ v => bv v end.
Definition total_size (fmt : list fitem) : Z := fold_right Z.add 0 (map item_size fmt).
(** The word that the format writes, first item in the most significant place. *)
Definition encode (vals : string -> Z) (fmt : list fitem) : Z :=
  fold_left (fun acc f => acc * 2 ^ item_size f + item_value vals f) fmt 0.

(** Names with the width and value that the handler must receive. *)
Definition item_field (vals : string -> Z) (f : fitem) : list (string * bs) :=
  match f with
  | FBit _ => []
  | FField n s => [(n, bits s (vals n))]
  | FConst n v => [(n, v)]
  end.
Definition item_names (f : fitem) : list string :=
  match f with FBit _ => [] | FField n _ | FConst n _ => [n] end.
(** The keyword arguments in the order of the Python dict: last item first. *)
Definition arguments (vals : string -> Z) (fmt : list fitem) : list (string * bs) :=
  flat_map (item_field vals) (rev fmt).
Definition names (fmt : list fitem) : list string := flat_map item_names fmt.

(** The object that a handler is given: class, mnemonic, word, address and the
    keyword arguments of the registration. *)
Definition blank_insn (k : klass) (mnemonic : string) (word address : Z) (is32 : bool) (kw : list kwarg) : insn :=
  mkinsn mnemonic word is32 address k [] (fold_left set_kwarg kw (klass_attrs k)).

(** ** Trying decoders in order *)

(** A decoder that the constructor built. *)
Definition made {H} (d : decoder H) : Prop :=
  exists h mnemonic k spec spec2 kw, make_decoder h mnemonic k spec spec2 kw = Ok d.

(** Number of fixed bits. *)
Definition popcount (z : Z) : Z :=
  Z.of_nat (List.length (filter (Z.testbit z) (py_range 32))).
Definition weight {H} (d : decoder H) : Z := popcount (d_mask d).

(** [l] holds the elements of [ds], more fixed bits first, equal numbers of fixed
    bits in the order of [ds]. *)
Definition priority_order {H} (ds l : list (decoder H)) : Prop :=
  (forall k, filter (fun d => weight d =? k) l = filter (fun d => weight d =? k) ds) /\
  StronglySorted (fun a b => weight b <= weight a) l.

(** The format's fixed bits agree with the word. *)
Definition matches {H} (d : decoder H) (w : Z) : Prop :=
  forall i, 0 <= i -> Z.testbit (d_mask d) i = true -> Z.testbit w i = Z.testbit (d_match d) i.

(** [first_of call py l w a o]: [o] is the result of the first decoder in [l] that
    matches and does not raise DecodeError; [None] if there is none. *)
Inductive first_of {H} (call : pyver -> H -> insn -> list (string * bs) -> res insn) (py : pyver) (w a : Z) :
    list (decoder H) -> option (res insn) -> Prop :=
| first_none : first_of call py w a [] None
| first_no_match : forall d l o, ~ matches d w -> first_of call py w a l o -> first_of call py w a (d :: l) o
| first_declined : forall d l o, matches d w -> decode_one call py d w a = Err DecodeError ->
    first_of call py w a l o -> first_of call py w a (d :: l) o
| first_taken : forall d l, matches d w -> decode_one call py d w a <> Err DecodeError ->
    first_of call py w a (d :: l) (Some (decode_one call py d w a)).

(** ** Histories of decode calls *)

Section History.
  Context {H : Type} (call : pyver -> H -> insn -> list (string * bs) -> res insn).
  (** The tree after the given calls (each a Python version, data and address). *)
  Definition after (t : dtree H) (calls : list (pyver * list Z * Z)) : dtree H :=
    fold_left (fun t '(py, data, a) => fst (decode call py t data a)) calls t.
End History.
