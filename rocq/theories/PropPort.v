(** Property statements; each is proved in PortThms.v under the same name.
    Written by tools/genprops.py. *)
From Coq Require Import ZArith List String Bool Lia.
From Verif Require Import ExecModel DisasmModel FormatModel SpecBits SpecCpu SpecWhole SpecDecoder SpecExec SpecFormat SpecIsa SpecDisasm SpecPort PortThms.
Local Open Scope Z_scope.

(** C73: decoding the same bytes at another address gives the same instruction at that
address, or the same exception. *)
Theorem C73_decode : forall py data a b, decode_bytes py data b = on_ok (at_address b) (decode_bytes py data a).
Proof. exact C73_decode_proof. Qed.
Print Assumptions C73_decode.

Example C73_decode_ex : exists i, decode_bytes Py2 [17; 48] 34 = Ok i /\ i_mnemonic i = "adds"%string /\
  decode_bytes Py2 [17; 48] 4096 = Ok (mkinsn "adds" 12305 false 4096 AddSub (i_operands i) (i_attrs i)).
Proof. eexists. split; [vm_compute; reflexivity|]. vm_compute. split; reflexivity. Qed.

(** C73: a block of code disassembled elsewhere gives the same instructions, each moved by
the same distance, and ends the same way. *)
Theorem C73_listing : forall py a data l r d, listing py a data l r -> listing py (a + d) data (map (moved_by d) l) r.
Proof. exact C73_listing_proof. Qed.
Print Assumptions C73_listing.

(** C73: the same for the generator, whatever the module has decoded before the two calls. *)
Theorem C73_disasm : forall py t t' data a b, bytes data -> module_tree t -> module_tree t' ->
  let '(_, l, r) := disasm py t data a in let '(_, l', r') := disasm py t' data b in
  l' = map (moved_by (b - a)) l /\ r' = r.
Proof. exact C73_disasm_proof. Qed.
Print Assumptions C73_disasm.

Example C73_disasm_ex : match DECODER_TREE with
  | Ok t => let '(_, l, r) := disasm Py2 t [0; 191; 0; 240; 3; 248; 17; 43; 0; 240] 100 in
      let '(_, l', r') := disasm Py2 t [0; 191; 0; 240; 3; 248; 17; 43; 0; 240] 5000 in
      map i_address l = [100; 102; 106] /\ map i_address l' = [5000; 5002; 5006] /\ l' = map (moved_by 4900) l /\ r = r'
  | Err _ => False
  end.
Proof. vm_compute. repeat split; reflexivity. Qed.

(** C73: what an instruction does depends on its class, its size, its attributes and the
machine only: two objects that agree in these leave the same machine and the same
attributes behind and raise the same exception, whatever their addresses, words,
mnemonics and operands. *)
Theorem C73_execute : forall py c i j, alike i j ->
  let '(s, r) := execute py c i in execute py c j = (mkst (s_cpu s) (attrs_of (s_self s) j), r).
Proof. exact C73_execute_proof. Qed.
Print Assumptions C73_execute.

Example C73_execute_ex : exists i j, decode_bytes Py2 [17; 48] 34 = Ok i /\ decode_bytes Py2 [17; 48] 4096 = Ok j /\ i <> j /\ alike i j /\
  reg_after Py2 ex_state j 0 = reg ex_state 0 + 17.
Proof. eexists. eexists. split; [vm_compute; reflexivity|]. split; [vm_compute; reflexivity|]. split; [discriminate|]. split; vm_compute; repeat split; reflexivity. Qed.

(** C73: in particular a decoded instruction does the same wherever its bytes were decoded. *)
Theorem C73_moved : forall py c data a b i, decode_bytes py data a = Ok i -> exists j, decode_bytes py data b = Ok j /\
  let '(s, r) := execute py c i in execute py c j = (mkst (s_cpu s) (at_address b (s_self s)), r).
Proof. exact C73_moved_proof. Qed.
Print Assumptions C73_moved.

Example C73_moved_ex : exists i j, decode_bytes Py2 [1; 72] 34 = Ok i /\ decode_bytes Py2 [1; 72] 4096 = Ok j /\
  reg_after Py2 ex_state i 0 = reg_after Py2 ex_state j 0 /\ reg_after Py2 ex_state i 15 = reg ex_state 15 + 2.
Proof. eexists. eexists. split; [vm_compute; reflexivity|]. split; [vm_compute; reflexivity|]. split; vm_compute; reflexivity. Qed.

(** C73: the text of an instruction without label operands is the same at every address. *)
Theorem C73_text : forall f b i, has_label i = false ->
  format f (at_address b i) = on_ok (fun '(i', f', text) => (at_address b i', f', text)) (format f i).
Proof. exact C73_text_proof. Qed.
Print Assumptions C73_text.

Example C73_text_ex : exists i, decode_bytes Py2 [17; 48] 34 = Ok i /\ has_label i = false /\
  text_of (mkfmt None []) (at_address 4096 i) = Ok "3011         adds    r0, #17         ; 0x11"%string.
Proof. eexists. split; [vm_compute; reflexivity|]. split; vm_compute; reflexivity. Qed.

(** C74: Python 3 decodes bytes to what Python 2 decodes them to, or raises the same
exception; only the mnemonics mov.w and mvn.w become movs.w and mvns.w. *)
Theorem C74_decode_partial : forall data a, bytes data -> decode_bytes Py3 data a = on_ok py3_insn (decode_bytes Py2 data a).
Proof. exact C74_decode_partial_proof. Qed.
Print Assumptions C74_decode_partial.

Example C74_decode_partial_ex : (exists i, decode_bytes Py2 [17; 48] 34 = Ok i /\ decode_bytes Py3 [17; 48] 34 = Ok i) /\
  (exists i, decode_bytes Py2 [95; 234; 3; 0] 0 = Ok i /\ i_mnemonic i = "movs.w"%string /\ decode_bytes Py3 [95; 234; 3; 0] 0 = Ok i) /\
  (exists i, decode_bytes Py2 [79; 234; 3; 0] 0 = Ok i /\ i_mnemonic i = "mov.w"%string /\ decode_bytes Py3 [79; 234; 3; 0] 0 = Ok (renamed "movs.w" i)).
Proof.
  split; [|split]; eexists.
  - split; vm_compute; reflexivity.
  - split; [vm_compute; reflexivity|]. split; vm_compute; reflexivity.
  - split; [vm_compute; reflexivity|]. split; vm_compute; reflexivity.
Qed.

(** C74: refuted for those: the same bytes are mov.w in Python 2 and movs.w in Python 3. *)
Theorem C74_decode_refuted : exists data, bytes data /\
  on_ok i_mnemonic (decode_bytes Py2 data 0) = Ok "mov.w"%string /\ on_ok i_mnemonic (decode_bytes Py3 data 0) = Ok "movs.w"%string.
Proof. exact C74_decode_refuted_proof. Qed.
Print Assumptions C74_decode_refuted.

(** C74: the listings of the two interpreters differ in these mnemonics only. *)
Theorem C74_listing_partial : forall a data l r, bytes data -> listing Py2 a data l r -> listing Py3 a data (map py3_insn l) r.
Proof. exact C74_listing_partial_proof. Qed.
Print Assumptions C74_listing_partial.

Example C74_listing_partial_ex : match DECODER_TREE with
  | Ok t => let '(_, l, r) := disasm Py2 t [0; 191; 79; 234; 3; 0; 17; 43] 100 in let '(_, l', r') := disasm Py3 t [0; 191; 79; 234; 3; 0; 17; 43] 100 in
      map i_mnemonic l = ["nop"; "mov.w"; "cmp"]%string /\ map i_mnemonic l' = ["nop"; "movs.w"; "cmp"]%string /\ l' = map py3_insn l /\ r = r'
  | Err _ => False
  end.
Proof. vm_compute. repeat split; reflexivity. Qed.

(** C74: an instruction of a class that does not transfer a register list does the same under
both interpreters. *)
Theorem C74_execute_partial : forall c i, transfers_list (i_klass i) = false -> execute Py3 c i = execute Py2 c i.
Proof. exact C74_execute_partial_proof. Qed.
Print Assumptions C74_execute_partial.

Example C74_execute_partial_ex : exists i, decode_bytes Py2 [17; 48] 34 = Ok i /\ transfers_list (i_klass i) = false /\
  reg_after Py3 ex_state i 0 = reg ex_state 0 + 17.
Proof. eexists. split; [vm_compute; reflexivity|]. split; vm_compute; reflexivity. Qed.

(** C74: so decoding and executing bytes that decode to such a class gives the same machine and
the same exception under both. *)
Theorem C74_bytes_partial : forall c data a i, bytes data -> decode_bytes Py2 data a = Ok i -> transfers_list (i_klass i) = false ->
  exists j, decode_bytes Py3 data a = Ok j /\
  s_cpu (fst (execute Py3 c j)) = s_cpu (fst (execute Py2 c i)) /\ snd (execute Py3 c j) = snd (execute Py2 c i).
Proof. exact C74_bytes_partial_proof. Qed.
Print Assumptions C74_bytes_partial.

Example C74_bytes_partial_ex : exists i j, decode_bytes Py2 [79; 234; 3; 0] 0 = Ok i /\ decode_bytes Py3 [79; 234; 3; 0] 0 = Ok j /\ i <> j /\
  reg_after Py3 ex_state j 0 = reg_after Py2 ex_state i 0.
Proof. eexists. eexists. split; [vm_compute; reflexivity|]. split; [vm_compute; reflexivity|]. split; [discriminate|vm_compute; reflexivity]. Qed.

(** C74: refuted for the others: the same pop of r0 alone overwrites r1 under Python 3. *)
Theorem C74_execute_refuted : exists c data i, cpu_ok c /\ bytes data /\ decode_bytes Py2 data 0 = Ok i /\ decode_bytes Py3 data 0 = Ok i /\
  is_insn i Pop [Regs 1] /\ snd (execute Py2 c i) = Ok tt /\ snd (execute Py3 c i) = Ok tt /\
  reg_after Py2 c i 1 = reg c 1 /\ reg_after Py3 c i 1 <> reg c 1.
Proof. exact C74_execute_refuted_proof. Qed.
Print Assumptions C74_execute_refuted.
