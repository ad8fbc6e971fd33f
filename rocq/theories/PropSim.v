(** Property statements; each is proved in SimThms.v under the same name.
    Written by tools/genprops.py. *)
From Verif Require Import SimModel SpecBits SpecCpu SpecWhole SpecDecoder SpecDisasm SpecFormat SpecExec SpecIsa ExecFacts SpecSim SimThms.
From Coq Require Import Lia.
Local Open Scope string_scope.
Local Open Scope list_scope.
Local Open Scope Z_scope.
Local Open Scope bool_scope.

(** C63: if the bytes at the pc, with bit 0 cleared, decode to an instruction and the
bytes behind it, of the four that are read, do not raise, [step] prints its line and
executes exactly this instruction; an exception of the execution comes out.  Missing:
following bytes that raise (C63_nothing, C63_refuted). *)
Theorem C63_step_partial : forall s args code i, ready s -> cpu_ok (sim_cpu s) ->
  let c := sim_cpu s in
  read_memory_block c (even_pc c) 4 = Some code -> decode_bytes Py2 code (even_pc c) = Ok i ->
  quiet_rest (even_pc c + i_size i) (skipn (Z.to_nat (i_size i)) code) ->
  exists s' text l, handle_step args s = (s', match snd (execute Py2 c i) with Ok _ => Done tt | Err e => Fail (Raised e) end) /\
    sim_cpu s' = s_cpu (fst (execute Py2 c i)) /\ ready s' /\ sim_out s' = sim_out s ++ map Txt l /\
    text_of (mkfmt None []) i = Ok text /\ glue l = the_line ("0x" +++ hexn 8 (even_pc c) +++ ":  " +++ text).
Proof. exact C63_step_partial_proof. Qed.
Print Assumptions C63_step_partial.

Example C63_step_partial_ex : on_sim (ex_code [17; 32; 0; 34]) (fun s =>
  exists s', handle_step [] s = (s', Done tt) /\ reg (sim_cpu s') 0 = 17 /\ reg (sim_cpu s') 2 = reg (sim_cpu s) 2 /\ reg (sim_cpu s') 15 = 2 /\
  out_text s' = the_line "0x00000000:  2011         movs    r0, #17         ; 0x11").
Proof. vm_compute. eexists. repeat split; reflexivity. Qed.

(** C63: in every other case nothing is executed: with the pc outside the memory
TypeError; if the bytes at the pc are undefined a message (another one if there are less
than four bytes); if they raise something else, or the bytes behind the first instruction
do, that exception. *)
Theorem C63_nothing : forall s args, ready s -> cpu_ok (sim_cpu s) ->
  let c := sim_cpu s in
  (unmapped c (even_pc c) -> handle_step args s = (s, Fail (Raised TypeError))) /\
  forall code, read_memory_block c (even_pc c) 4 = Some code ->
  (decode_bytes Py2 code (even_pc c) = Err UndefinedInstructionError ->
    exists s' t, handle_step args s = (s', Done tt) /\ module_tree t /\
      printed (mksim c t (sim_out s) false) (the_line (if 4 <=? Z.of_nat (List.length code) then "Undefined instruction" else "No instructions found!")) s') /\
  (forall e, decode_bytes Py2 code (even_pc c) = Err e -> e <> UndefinedInstructionError ->
    exists t, module_tree t /\ handle_step args s = (mksim c t (sim_out s) false, Fail (Raised e))) /\
  (forall i e, decode_bytes Py2 code (even_pc c) = Ok i ->
    decode_bytes Py2 (skipn (Z.to_nat (i_size i)) code) (even_pc c + i_size i) = Err e -> e <> UndefinedInstructionError ->
    skipn (Z.to_nat (i_size i)) code <> [] ->
    exists t, module_tree t /\ handle_step args s = (mksim c t (sim_out s) false, Fail (Raised e))).
Proof. exact C63_nothing_proof. Qed.
Print Assumptions C63_nothing.

Example C63_nothing_ex : on_sim (ex_code [0; 182; 0; 0]) (fun s => exists s', handle_step [] s = (s', Done tt) /\
  out_text s' = the_line "Undefined instruction") /\
  on_sim (ex_code [0; 182]) (fun s => exists s', handle_step [] s = (s', Done tt) /\ out_text s' = the_line "No instructions found!") /\
  on_sim cpu_new (fun s => snd (handle_step [] s) = Fail (Raised TypeError)).
Proof. vm_compute. repeat split; eexists; split; reflexivity. Qed.

(** C63 fails: a nop is not executed if the halfword behind it cannot be decoded. *)
Theorem C63_refuted : exists c code i, cpu_ok c /\ read_memory_block c (even_pc c) 4 = Some code /\
  decode_bytes Py2 code (even_pc c) = Ok i /\ reg (s_cpu (fst (execute Py2 c i))) 15 = 2 /\
  forall s args, ready s -> sim_cpu s = c -> exists s', handle_step args s = (s', Fail (Raised AttributeError)) /\ sim_cpu s' = c /\ reg c 15 = 0.
Proof. exact C63_refuted_proof. Qed.
Print Assumptions C63_refuted.

(** C68: decimal, hexadecimal, octal (old and new style) and binary numbers, with or
without sign, have their value; nothing is printed. *)
Theorem C68_integer : forall t n s, integer t n -> convert_value t s = (s, Done n).
Proof. exact C68_integer_proof. Qed.
Print Assumptions C68_integer.

Example C68_integer_ex : integer "0x1f" 31 /\ integer "-0b101" (-5) /\ integer "017" 15 /\ integer "1234" 1234 /\
  forall s, convert_value "0X1_F" s = (s, Done 31) /\ snd (convert_value "08" s) = Fail (Raised ValueError).
Proof.
  assert (D : forall b t n, forallb (fun c => (0 <=? char_digit c) && (char_digit c <? b)) (chars t) = true ->
    be_number b (map char_digit (chars t)) = n -> denotes b t n).
  { intros b t n F N. split; [|exact N]. rewrite forallb_forall in F. apply Forall_forall. intros c I. specialize (F c I). unfold is_base_digit. lia. }
  split; [apply int_plain, (num_hex "1f"); [discriminate|apply D; reflexivity]|].
  split; [apply (int_minus "0b101" 5), (num_bin "101"); [discriminate|apply D; reflexivity]|].
  split; [apply int_plain, (num_old "17"); [discriminate|apply D; reflexivity]|].
  split; [|intros s; split; vm_compute; reflexivity].
  apply int_plain, num_dec. split; [apply D; reflexivity|]. split; [discriminate|]. intros _. exists "1"%char, "234". split; [reflexivity|discriminate].
Qed.

(** C68: upper and lower case are the same, and underscores can be put anywhere. *)
Theorem C68_spelling : forall a b s,
  convert_value (a +++ "_" +++ b) s = convert_value (a +++ b) s /\ convert_value (lower a) s = convert_value a s.
Proof. exact C68_spelling_proof. Qed.
Print Assumptions C68_spelling.

Example C68_spelling_ex : forall s, convert_value "1_000" s = (s, Done 1000) /\ convert_value "0xABCD_EF01" s = (s, Done 2882400001).
Proof. intros s. split; vm_compute; reflexivity. Qed.

(** C68: a register name, in any case, means the content of the register, which is also
printed. *)
Theorem C68_register : forall s name k, ready s -> regs_ok (sim_cpu s) -> register_name_to_index (RName name) = Some k ->
  exists s', convert_value name s = (s', Done (reg (sim_cpu s) k)) /\
    printed s (the_line (lower name +++ " = 0x" +++ hexn 8 (reg (sim_cpu s) k))) s'.
Proof. exact C68_register_proof. Qed.
Print Assumptions C68_register.

Example C68_register_ex : on_sim ex_state (fun s => exists s', convert_value "SP" s = (s', Done (reg ex_state 13)) /\
  out_text s' = the_line "sp = 0x00000030").
Proof. vm_compute. eexists. split; reflexivity. Qed.

(** C68: a number or register in brackets, with or without an offset, means the word at
that address, lowest byte first; it is printed.  With less than four bytes there the
conversion raises IndexError, outside the memory TypeError. *)
Theorem C68_deref : forall s x a pre arg off, ready s -> cpu_ok (sim_cpu s) -> base_value (sim_cpu s) x a pre -> bracketed x arg off ->
  (forall i m, located (sim_cpu s) (a + off) i m ->
    match take_cells (sim_cpu s) i (a + off - m_start m) 4 with
    | Some l => exists s' o, convert_value arg s = (s', Done (le_number l)) /\ dec_text o off /\
        printed s (pre +++ the_line ("[" +++ lower x +++ "," +++ o +++ "] = 0x" +++ hexn 8 (le_number l))) s'
    | None => exists s', convert_value arg s = (s', Fail (Raised IndexError)) /\ printed s pre s'
    end) /\
  (unmapped (sim_cpu s) (a + off) -> exists s', convert_value arg s = (s', Fail (Raised TypeError)) /\ printed s pre s').
Proof. exact C68_deref_proof. Qed.
Print Assumptions C68_deref.

Example C68_deref_ex : on_sim (ex_code [1; 2; 3; 4; 5; 6; 7; 8]) (fun s => exists s', convert_value "[R0,+0x3]" s = (s', Done 117835012) /\
  out_text s' = the_line "r0 = 0x00000000" +++ the_line "[r0,3] = 0x07060504" /\
  snd (convert_value "[5]" s) = Fail (Raised IndexError) /\ snd (convert_value "[8]" s) = Fail (Raised TypeError)).
Proof. vm_compute. eexists. repeat split; reflexivity. Qed.

(** C68, all forms of an argument: it has its value, and only what is expected is
printed. *)
Theorem C68_argument : forall s t v pre, ready s -> cpu_ok (sim_cpu s) -> argument (sim_cpu s) t v pre ->
  exists s', convert_value t s = (s', Done v) /\ printed s pre s'.
Proof. exact C68_argument_proof. Qed.
Print Assumptions C68_argument.

Example C68_argument_ex : argument ex_state "R1_3" (reg ex_state 13) (the_line "r13 = 0x00000030").
Proof.
  apply (arg_underscore _ "R1" "3"), arg_base.
  replace (the_line "r13 = 0x00000030") with (the_line (lower "R13" +++ " = 0x" +++ hexn 8 (reg ex_state 13))) by (vm_compute; reflexivity).
  apply (base_register _ "R13" 13). reflexivity.
Qed.

(** C64, read: the bytes at the address, at most as many as asked for and as the region
has, are shown as units of the width, lowest byte first; nothing changes.  Bytes behind the
last whole unit are not shown by read32 and make read16 raise IndexError.  Outside the
memory TypeError, and nothing is shown. *)
Theorem C64_read : forall s w a addr pre n count pre', ready s -> cpu_ok (sim_cpu s) -> width_ok w ->
  argument (sim_cpu s) a addr pre -> count_args (sim_cpu s) w n count pre' -> 
  (forall i m, located (sim_cpu s) addr i m -> 0 <= count -> 
    let d := firstn (Z.to_nat count) (skipn (Z.to_nat (addr - m_start m)) (m_data m)) in
    0 <= addr -> addr + Z.of_nat (List.length d) <= 2 ^ 32 ->
    exists items rest s', d = as_bytes w items ++ rest /\ Z.of_nat (List.length rest) < w / 8 /\ Forall (fun v => 0 <= v < 2 ^ w) items /\
      let bad := (w =? 16) && negb (List.length rest =? 0)%nat in
      do_read (a :: n) w s = (s', if bad then Fail (Raised IndexError) else Done tt) /\
      printed s ((pre +++ pre') +++ (if bad then "" else dump_text w addr items)) s') /\
  (unmapped (sim_cpu s) addr -> exists s', do_read (a :: n) w s = (s', Fail (Raised TypeError)) /\ printed s (pre +++ pre') s') /\
  do_read [] w s = print "Error: no address specified" s.
Proof. exact C64_read_proof. Qed.
Print Assumptions C64_read.

Example C64_read_ex : on_sim (ex_code [1; 2; 3; 4; 5; 6; 7; 8; 9]) (fun s =>
  (exists s', do_read ["1"; "r0"] 8 s = (s', Done tt) /\ out_text s' = the_line "r0 = 0x00000000") /\
  (exists s', do_read ["1"; "6"] 16 s = (s', Done tt) /\ out_text s' = the_line "00000001:  0302 0504 0706") /\
  (exists s', do_read ["1"; "6"] 32 s = (s', Done tt) /\ out_text s' = the_line "00000001:  05040302") /\
  (exists s', do_read ["7"] 8 s = (s', Done tt) /\ out_text s' = the_line "00000007:  08") /\
  snd (do_read ["6"; "9"] 16 s) = Fail (Raised IndexError)).
Proof. vm_compute. split; [|split; [|split; [|split]]]; try (eexists; split; reflexivity); reflexivity. Qed.

(** C64, write: bytes given as data are stored as units of the width, lowest byte first,
from the address on, and nothing else changes; outside the memory nothing is stored, and
without data there is a message. *)
Theorem C64_write : forall s w a addr pre ds data pres, ready s -> cpu_ok (sim_cpu s) -> width_ok w -> ds <> [] ->
  argument (sim_cpu s) a addr pre -> arguments (sim_cpu s) ds data pres -> bytes data ->
  (forall i m, located (sim_cpu s) addr i m ->
    exists c' s', do_write (a :: ds) w s = (s', Done tt) /\ printed (on_cpu s c') (pre +++ pres) s' /\
      c_regs c' = c_regs (sim_cpu s) /\ layout c' = layout (sim_cpu s) /\ mem_ok c' /\
      forall j o, cell c' j o =
        let off := addr - m_start m in let units := as_bytes w data in
        if (Nat.eqb j i && (off <=? o) && (o <? off + Z.of_nat (List.length units)))%bool
        then nth_error units (Z.to_nat (o - off)) else cell (sim_cpu s) j o) /\
  (unmapped (sim_cpu s) addr -> exists s', do_write (a :: ds) w s = (s', Done tt) /\ printed s (pre +++ pres) s') /\
  (exists s', do_write [a] w s = (s', Done tt) /\ printed s (pre +++ the_line "Error: no data for write") s') /\
  do_write [] w s = print "Error: no address specified" s.
Proof. exact C64_write_proof. Qed.
Print Assumptions C64_write.

Example C64_write_ex : on_sim (ex_code [1; 2; 3; 4; 5; 6; 7; 8]) (fun s =>
  (exists s', do_write ["2"; "0x10"; "0xff"] 8 s = (s', Done tt) /\ map m_data (c_mem (sim_cpu s')) = [[1; 2; 16; 255; 5; 6; 7; 8]]) /\
  (exists s', do_write ["2"; "0x10"; "0xff"] 16 s = (s', Done tt) /\ map m_data (c_mem (sim_cpu s')) = [[1; 2; 16; 0; 255; 0; 7; 8]])).
Proof. vm_compute. split; eexists; split; reflexivity. Qed.

(** C64: after writing bytes the read command of the same width shows them.  Missing:
units above 255 for widths 16 and 32 (C64_limit, C64_refuted), and addresses where the
column would not fit into eight digits. *)
Theorem C64_roundtrip_partial : forall s w a addr ds data pres n i m, ready s -> cpu_ok (sim_cpu s) -> width_ok w -> ds <> [] ->
  integer a addr -> arguments (sim_cpu s) ds data pres -> bytes data ->
  integer n (w / 8 * Z.of_nat (List.length data)) -> located (sim_cpu s) addr i m ->
  0 <= addr -> addr + w / 8 * Z.of_nat (List.length data) <= 2 ^ 32 ->
  exists s' s'', do_write (a :: ds) w s = (s', Done tt) /\ do_read [a; n] w s' = (s'', Done tt) /\
    printed s' (dump_text w addr data) s''.
Proof. exact C64_roundtrip_partial_proof. Qed.
Print Assumptions C64_roundtrip_partial.

Example C64_roundtrip_partial_ex : on_sim (ex_code [1; 2; 3; 4; 5; 6; 7; 8]) (fun s => exists s' s'',
  do_write ["2"; "0x12"; "254"] 16 s = (s', Done tt) /\ do_read ["2"; "4"] 16 s' = (s'', Done tt) /\ out_text s'' = the_line "00000002:  0012 00fe").
Proof. vm_compute. eexists. eexists. repeat split; reflexivity. Qed.

(** C64: a value that is not a byte makes every write command raise ValueError, and
nothing is stored. *)
Theorem C64_limit : forall s w a addr pre ds data pres, ready s -> cpu_ok (sim_cpu s) ->
  argument (sim_cpu s) a addr pre -> arguments (sim_cpu s) ds data pres -> ~ bytes data ->
  exists s' t, do_write (a :: ds) w s = (s', Fail (Raised ValueError)) /\ printed s t s'.
Proof. exact C64_limit_proof. Qed.
Print Assumptions C64_limit.

Example C64_limit_ex : on_sim (ex_code [1; 2; 3; 4]) (fun s => exists s', do_write ["0"; "1"; "256"] 32 s = (s', Fail (Raised ValueError)) /\ sim_cpu s' = sim_cpu s).
Proof. vm_compute. eexists. split; reflexivity. Qed.

(** C64 fails: write16 does not take the halfword 0x1234. *)
Theorem C64_refuted : exists c v, cpu_ok c /\ 0 <= v < 2 ^ 16 /\ located c 0 0 (mkmem 0 3 [1; 2; 3; 4]) /\
  forall s, ready s -> sim_cpu s = c -> exists t, integer t v /\ do_write ["0"; t] 16 s = (s, Fail (Raised ValueError)).
Proof. exact C64_refuted_proof. Qed.
Print Assumptions C64_refuted.

(** C66: a dump shows the units, a multiple of 16 bytes in a line that begins with its
address - for bytes, and for one line of wider units.  Missing: further lines of units of
16 and 32 bits (C66_refuted). *)
Theorem C66_dump_partial : forall s w start l, ready s -> width_ok w -> Forall (fun v => 0 <= v < 2 ^ w) l ->
  0 <= start -> start + Z.of_nat (List.length l) <= 2 ^ 32 -> (w = 8 \/ Z.of_nat (List.length l) <= 128 / w) ->
  exists s', dumpHexData l start w s = (s', Done tt) /\ printed s (right_dump w start l) s'.
Proof. exact C66_dump_partial_proof. Qed.
Print Assumptions C66_dump_partial.

Example C66_dump_partial_ex : right_dump 8 4096 [0; 1; 2; 3; 4; 5; 6; 7; 8; 9; 10; 11; 12; 13; 14; 15; 16] =
  the_line "00001000:  00 01 02 03  04 05 06 07  08 09 0a 0b  0c 0d 0e 0f " +++ the_line "00001010:  10" /\
  right_dump 32 4096 [1; 2; 3; 4; 5] = the_line "00001000:  00000001 00000002 00000003 00000004" +++ the_line "00001010:  00000005".
Proof. split; vm_compute; reflexivity. Qed.

(** C66, any number of lines: the units are right, but the address at the beginning of
a line counts units. *)
Theorem C66_exact : forall s w start l, ready s -> width_ok w -> Forall (fun v => 0 <= v < 2 ^ w) l ->
  0 <= start -> start + Z.of_nat (List.length l) <= 2 ^ 32 ->
  exists s', dumpHexData l start w s = (s', Done tt) /\ printed s (dump_text w start l) s'.
Proof. exact C66_exact_proof. Qed.
Print Assumptions C66_exact.

Example C66_exact_ex : dump_text 32 4096 [1; 2; 3; 4; 5] =
  the_line "00001000:  00000001 00000002 00000003 00000004" +++ the_line "00001004:  00000005".
Proof. vm_compute. reflexivity. Qed.

(** C66 fails: the second line of a dump of words is labelled with an address that is
twelve too low. *)
Theorem C66_refuted : exists w start l, width_ok w /\ Forall (fun v => 0 <= v < 2 ^ w) l /\
  forall s, ready s -> exists s', dumpHexData l start w s = (s', Done tt) /\ ~ printed s (right_dump w start l) s'.
Proof. exact C66_refuted_proof. Qed.
Print Assumptions C66_refuted.
