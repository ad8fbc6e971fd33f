(** Property statements; each is proved in DumpThms.v under the same name.
    Written by tools/genprops.py. *)
From Coq Require Import ZArith List String Bool Lia Permutation.
From Verif Require Import DumpModel TableModel SpecBits SpecDecoder SpecApi SpecDump DumpThms.
Local Open Scope Z_scope.

(** C82: after [build], and with whatever was added since, [dump] in Python 2 shows every
decoder that was built exactly once, the 16-bit ones first, as an outline: under each mask
and key are the decoders that have these bits.  Missing: Python 3 (C82_dump_refuted). *)
Theorem C82_dump_partial : forall (H : Type) call (before : list (rcall H)) since,
  Forall (fun c => match c with RInstr _ _ _ _ _ _ => True | _ => False end) since ->
  exists l16 l32,
    dump 2 Py2 (r_history call (before ++ RBuild :: since)) None =
      ((Heading "16-bit instructions:" :: l16 ++ Heading "32-bit instructions:" :: l32)%list, Ok tt) /\
    Permutation (listed l16) (registered16 (added before)) /\
    Permutation (listed l32) (registered32 (added before)) /\
    outline 0 (listed l16) l16 /\ outline 0 (listed l32) l32.
Proof. exact C82_dump_partial_proof. Qed.
Print Assumptions C82_dump_partial.

Example C82_dump_partial_ex : let call := fun (_ : pyver) (_ : Z) i (_ : list (string * bs)) => Ok i in
  map (fun x => match x with Heading _ => (9, 0) | MaskLine _ m => (m, 1) | KeyLine _ _ k => (k, 2) | DecoderLine _ _ d => (d_handler d, 3) end)
    (fst (dump 2 Py2 (r_history call [RInstr 1 "one" Instruction "0000 0000 a(8)" None []; RInstr 2 "two" Instruction "0000 0001 a(8)" None []; RBuild]) None)) =
  [(9, 0); (0xff00, 1); (0, 2); (0, 1); (1, 3); (0x100, 2); (0, 1); (2, 3); (9, 0); (0, 1)].
Proof. vm_compute. reflexivity. Qed.

(** C82: Python 3: [dump] raises AttributeError unless both trees are leaves. *)
Theorem C82_dump_py3 : forall (H : Type) call (before : list (rcall H)),
  exists t, build (added before) = Ok t /\
    snd (dump 2 Py3 (r_history call (before ++ [RBuild])) None) = if leaf (t_16 t) && leaf (t_32 t) then Ok tt else Err AttributeError.
Proof. exact C82_dump_py3_proof. Qed.
Print Assumptions C82_dump_py3.

Example C82_dump_py3_ex : let call := fun (_ : pyver) (_ : Z) i (_ : list (string * bs)) => Ok i in
  snd (dump 2 Py3 (r_history call [RInstr 1 "one" Instruction "0000 0000 a(8)" None []; RBuild]) None) = Ok tt.
Proof. vm_compute. reflexivity. Qed.

(** ... so the dump of the library's own table fails in Python 3. *)
Theorem C82_dump_refuted : exists ds t, DECODERS = Ok ds /\ build ds = Ok t /\ leaf (t_16 t) = false /\
  snd (dump 2 Py3 (mkregistry (registered16 ds) (registered32 ds) (Some (t_16 t)) (Some (t_32 t))) None) = Err AttributeError.
Proof. exact C82_dump_refuted_proof. Qed.
Print Assumptions C82_dump_refuted.

(** C82: before the first [build] the method calls itself for ever. *)
Theorem C82_unbuilt : forall (H : Type) (o : registry H) py fuel, rg_tree16 o = None -> snd (dump fuel py o None) = Err OutOfFuel.
Proof. exact C82_unbuilt_proof. Qed.
Print Assumptions C82_unbuilt.

Example C82_unbuilt_ex : forall H : Type, fst (dump 2 Py3 (@registry_new H) None) = [Heading "16-bit instructions:"; Heading "16-bit instructions:"]%string.
Proof. reflexivity. Qed.

(** C82: a decode leaves the tree as it was unless it raised AttributeError for want of a key;
after that the tree cannot be dumped. *)
Theorem C82_after_miss : forall (H : Type) call py (t : tree H) w a,
  (forall py h i l, call py h i l <> Err AttributeError) -> ~ holed t ->
  let '(t', r) := tree_decode call py t w a in
  (r <> Err AttributeError -> t' = t) /\
  (r = Err AttributeError -> forall depth, snd (dump_tree Py2 depth t') = Err AttributeError).
Proof. exact C82_after_miss_proof. Qed.
Print Assumptions C82_after_miss.

Example C82_after_miss_ex : let call := fun (_ : pyver) (_ : Z) i (_ : list (string * bs)) => Ok i in
  let o := r_history call [RInstr 1 "one" Instruction "0000 0000 a(8)" None []; RInstr 2 "two" Instruction "0000 0001 a(8)" None []; RBuild] in
  snd (registry_decode call Py2 [0; 2] 0 o) = Err AttributeError /\
  snd (dump 2 Py2 o None) = Ok tt /\ snd (dump 2 Py2 (fst (registry_decode call Py2 [0; 2] 0 o)) None) = Err AttributeError.
Proof. repeat split; vm_compute; reflexivity. Qed.

(** C82: the texts of the lines. *)
Theorem C82_texts : forall (H : Type) py id (d : decoder H) depth i z s,
  line_text py id (Heading s : dline H) = s /\
  line_text py id (MaskLine depth z : dline H) = (indent depth ++ " 0x" ++ fmt_x z ++ " =>")%string /\
  line_text py id (KeyLine depth i z : dline H) = ("  " ++ indent depth ++ " " ++ fmt_d (Z.of_nat i) ++ " : 0x" ++ fmt_x z)%string /\
  line_text py id (DecoderLine depth i d) = ("  " ++ indent depth ++ " " ++ fmt_d (Z.of_nat i) ++ " : " ++ decoder_repr py (id d) d)%string /\
  decoder_repr Py2 z d = ("<Decoder@0x" ++ fmt_x z ++ " " ++ d_mnemonic d ++ " " ++ fmt_x (d_mask d) ++ "/" ++ fmt_x (d_match d)
     ++ " [" ++ join ", " (map (fun n => "'" ++ n ++ "'") (map fst (d_fields d))) ++ "]>")%string /\
  decoder_repr Py3 z d = ("<Decoder@0x" ++ fmt_x z ++ " " ++ d_mnemonic d ++ " " ++ fmt_x (d_mask d) ++ "/" ++ fmt_x (d_match d)
     ++ " dict_keys([" ++ join ", " (map (fun n => "'" ++ n ++ "'") (map fst (d_fields d))) ++ "])>")%string.
Proof. exact C82_texts_proof. Qed.
Print Assumptions C82_texts.

Example C82_texts_ex : exists d : decoder Z, make_decoder 1 "one" Instruction "0000 0001 a(4) b(4)" None [] = Ok d /\
  line_text Py3 (fun _ => 4096) (DecoderLine 0 3 d) = "   3 : <Decoder@0x1000 one ff00/100 dict_keys(['b', 'a'])>"%string.
Proof. eexists. split; vm_compute; reflexivity. Qed.
