(** * Vocabulary for the statements about the CPU model's delegate and the decoder registry *)
From Verif Require Import DelegateModel RegistryModel SpecBits SpecCpu SpecDecoder.
Local Open Scope Z_scope.

(** ** Delegates *)

(** [keeps d k Inv V]: as long as [Inv] holds, register [k] of the delegate holds the 32-bit
    number [V], reading it returns that and a write stores what is written. *)
Definition keeps {S} (d : delegate S) (k : Z) (Inv : S -> Prop) (V : S -> Z) : Prop :=
  forall s, Inv s -> 0 <= V s < 2 ^ 32 /\
    (exists s', del_read_register d (Some k) s = (s', Ok (VInt (V s))) /\ Inv s' /\ V s' = V s) /\
    forall v, 0 <= v < 2 ^ 32 -> exists s', del_write_register d (Some k) v s = (s', Ok tt) /\ Inv s' /\ V s' = v.

(** Results of the mock CPU in the form of a delegate's: a state and a value. *)
Definition reads {S A B} (f : A -> B) (s : S) (r : res A) : S * res B := (s, match r with Ok x => Ok (f x) | Err e => Err e end).
Definition writes {S} (s : S) (r : res S) : S * res unit := match r with Ok s' => (s', Ok tt) | Err e => (s, Err e) end.

(** A call of the CPU model's interface. *)
Inductive gcall :=
| GReadReg (r : regref) | GWriteReg (r : regref) (v : num)
| GReadMem (a : num) (size : Z) | GWriteMem (a v : num) (size : Z).
(** What it is to ask of the delegate: registers by index, everything as integers. *)
Inductive dcall :=
| DReadReg (k : option Z) | DWriteReg (k : option Z) (v : Z)
| DReadMem (a size : Z) | DWriteMem (a v size : Z).
Definition asks (g : gcall) : dcall :=
  match g with
  | GReadReg r => DReadReg (register_name_to_index r)
  | GWriteReg r v => DWriteReg (register_name_to_index r) (num_val v)
  | GReadMem a n => DReadMem (num_val a) n
  | GWriteMem a v n => DWriteMem (num_val a) (num_val v) n
  end.
Definition g_call {S} (d : option (delegate S)) (g : gcall) (s : S) : S :=
  match g with
  | GReadReg r => fst (g_read_register d r s)
  | GWriteReg r v => fst (g_write_register d r v s)
  | GReadMem a n => fst (g_read_memory d a n s)
  | GWriteMem a v n => fst (g_write_memory d a v n s)
  end.
(** A delegate that writes down how it is called, and behaves like [d] otherwise. *)
Definition recording {S} (d : delegate S) : delegate (S * list dcall) := mkdelegate
  (fun k '(s, l) => let '(s', r) := del_read_register d k s in ((s', l ++ [DReadReg k]), r))
  (fun k v '(s, l) => let '(s', r) := del_write_register d k v s in ((s', l ++ [DWriteReg k v]), r))
  (fun a n '(s, l) => let '(s', r) := del_read_memory d a n s in ((s', l ++ [DReadMem a n]), r))
  (fun a v n '(s, l) => let '(s', r) := del_write_memory d a v n s in ((s', l ++ [DWriteMem a v n]), r)).

(** A delegate for the examples: a machine with one 32-bit register that counts accesses. *)
Definition ex_delegate : delegate (Z * Z) := mkdelegate
  (fun _ '(v, n) => ((v, n + 1), Ok (VInt v)))
  (fun _ v '(_, n) => ((v, n + 1), Ok tt))
  (fun _ _ s => (s, Ok (VInt 0)))
  (fun _ _ _ s => (s, Ok tt)).

(** The result of a call, seen through a function. *)
Definition seen {A B} (f : A -> B) (r : res A) : res B := match r with Ok x => Ok (f x) | Err e => Err e end.

(** ** The registry of decoders *)
Section Registry.
  Context {H : Type}.
  (** A call of the methods of a DecoderTree; the decorator [instr] adds a decoder if its
      specification is valid. *)
  Inductive rcall :=
  | RInstr (h : H) (m : string) (k : klass) (spec : string) (spec2 : option string) (kw : list kwarg)
  | RBuild
  | RDecode (py : pyver) (data : list Z) (a : Z).
  Definition r_call (call : pyver -> H -> insn -> list (string * bs) -> res insn) (o : registry H) (c : rcall) : registry H :=
    match c with
    | RInstr h m k spec spec2 kw => fst (registry_instr h m k spec spec2 kw o)
    | RBuild => fst (registry_build o)
    | RDecode py data a => fst (registry_decode call py data a o)
    end.
  Definition r_history (call : pyver -> H -> insn -> list (string * bs) -> res insn) (l : list rcall) : registry H :=
    fold_left (r_call call) l registry_new.
  (** The decoders added by some calls, in order. *)
  Definition added (l : list rcall) : list (decoder H) :=
    flat_map (fun c => match c with
      | RInstr h m k spec spec2 kw => match make_decoder h m k spec spec2 kw with Ok d => [d] | Err _ => [] end
      | _ => []
      end) l.
  Definition no_build (l : list rcall) : Prop := Forall (fun c => c <> RBuild) l.
  Definition builds (c : rcall) : bool := match c with RBuild => true | _ => false end.
End Registry.
Arguments rcall : clear implicits.
