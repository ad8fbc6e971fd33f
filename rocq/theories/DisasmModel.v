(** * Model of /repo/cmdis/disasm.py

    [Disassembler.disasm] is a generator: [gen] holds its local variables and
    [disasm_next] is one call of [next].  The decoder tree is shared with every other
    user of the module, so it is passed in and returned. *)
From Verif Require Export TableModel.

(** disasm.py:28-31, 47-49: the locals.  [g_live] is false once the generator has
    returned or raised. *)
Record gen := mkgen { g_data : list Z; g_address : Z; g_end : Z; g_offset : Z; g_live : bool }.

(** disasm.py:27-30 *)
Definition disasm_start (data : list Z) (address : Z) : gen :=
  mkgen data address (address + Z.of_nat (List.length data)) 0 true.

(** What one call of [next] does. *)
Inductive pulled := Yields (i : insn) | Stops | Throws (e : exc).

(** [data[offset:]] for [offset >= 0] *)
Definition from_offset (data : list Z) (offset : Z) : list Z := skipn (Z.to_nat offset) data.

Definition finished (g : gen) : gen := mkgen (g_data g) (g_address g) (g_end g) (g_offset g) false.

(** disasm.py:31-49, up to the next [yield]; the assignments of lines 47-49 are made
    when the generator is resumed, which nothing can observe. *)
Definition disasm_next (py : pyver) (t : dtree hid) (g : gen) : dtree hid * gen * pulled :=
  if negb (g_live g) then (t, g, Stops) else
  if g_address g <? g_end g then
    let '(t', r) := decode call_handler py t (from_offset (g_data g) (g_offset g)) (g_address g) in
    match r with
    | Ok i => (t', mkgen (g_data g) (g_address g + i_size i) (g_end g) (g_offset g + i_size i) true, Yields i)
    | Err UndefinedInstructionError =>
        if g_end g - g_address g <? 4 then (t', finished g, Stops)
        else (t', finished g, Throws UndefinedInstructionError)
    | Err e => (t', finished g, Throws e)
    end
  else (t, finished g, Stops).

(** [for i in disasm(...)]: the objects in order, and how it ended; with fuel *)
Fixpoint pull_all (fuel : nat) (py : pyver) (t : dtree hid) (g : gen) : dtree hid * list insn * res unit :=
  match fuel with
  | O => (t, [], Err OutOfFuel)
  | S f =>
    let '(t', g', p) := disasm_next py t g in
    match p with
    | Yields i => let '(t'', l, r) := pull_all f py t' g' in (t'', i :: l, r)
    | Stops => (t', [], Ok tt)
    | Throws e => (t', [], Err e)
    end
  end.
Definition disasm (py : pyver) (t : dtree hid) (data : list Z) (address : Z) : dtree hid * list insn * res unit :=
  pull_all (S (List.length data)) py t (disasm_start data address).
