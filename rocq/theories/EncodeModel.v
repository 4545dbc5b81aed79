(** Instruction encoding, insn16/libinsn.  Definitions only. *)

From Coq Require Import ZArith Bool List.
From Verif Require Import Words State Opcodes Machine.
Import ListNotations.
Open Scope Z_scope.

(** insn16/libinsn/insn_addopcode.c:55-82 insn_AddOpCode (insn_AddTmpOpCode in
    insn_addtmpopcode.c:55-82 is the same for a temporary program section): the
    bytes passed to poffAddProgByte(uint8_t). *)
Definition add_opcode (p : opType) : list Z :=
  [u8 (op p)] ++
  (if has8 (op p) then [u8 (arg1 p)] else []) ++
  (if has16 (op p) then [u8 (arg2 p / 256); u8 (Z.land (arg2 p) 0xff)] else []).

(** The returned opSize *)
Definition op_size (o : Z) : Z :=
  1 + (if has8 o then 1 else 0) + (if has16 o then 2 else 0).

(** poffGetProgByte: next byte or EOF (-1) *)
Definition getbyte (l : list Z) : Z * list Z :=
  match l with [] => (-1, []) | b :: l' => (u8 b, l') end.

(** insn16/libinsn/insn_getopcode.c:64-122 insn_GetOpCode.  [e] is g_bEndIn. *)
Definition get_opcode (e : bool) (l : list Z) : opType * Z * bool * list Z :=
  let '(c, l1) := if e then (-1, l) else getbyte l in
  if e || (c =? -1) then (mkOp oEND 0 0, 1, e, l1)
  else
    let '(a1, l2) := if has8 c then let '(x, r) := getbyte l1 in (u8 x, r) else (0, l1) in
    let '(a2, l4) :=
      if has16 c then
        let '(h, r) := getbyte l2 in let '(x, r') := getbyte r in
        (u16 (Z.lor (u16 (Z.shiftl h 8)) (Z.land x 0xff)), r')
      else (0, l2) in
    (mkOp c a1 a2, op_size c, c =? oEND, l4).

(** The read loop of the tools (e.g. insn16/popt/popt_finalize.c:150-187,
    plink/plink.c:348-382: do { opSize = insn_GetOpCode(...) ... } while
    (op.op != oEND)).  Result: the instructions, the sum of the sizes and the
    unread bytes; [None]: fuel exhausted. *)
Fixpoint read_program (n : nat) (e : bool) (l : list Z) : option (list opType * Z * list Z) :=
  match n with
  | O => None
  | S n' =>
    let '(p, sz, e', l') := get_opcode e l in
    if op p =? oEND then Some ([p], sz, l')
    else match read_program n' e' l' with
         | Some (ps, sz', r) => Some (p :: ps, sz + sz', r)
         | None => None
         end
  end.

(** Writing a list of instructions with insn_AddOpCode *)
Fixpoint write_program (ps : list opType) : list Z :=
  match ps with [] => [] | p :: ps' => add_opcode p ++ write_program ps' end.

(** insn16/libinsn/insn_generate.c:212-236 insn16_Generate; [code] is the entry
    of g_opCodeMap, arg1 a uint16_t, arg2 an int32_t.  The result is whether
    error(eINTOVF) was called, and the bytes written. *)
Definition generate (code a1 a2 : Z) : bool * list Z :=
  let e1 := has8 code && (0xff <? a1) in
  let e2 := has16 code && ((a2 <? -32768) || (65535 <? a2)) in
  (e1 || e2,
   [u8 code] ++
   (if has8 code then [u8 a1] else []) ++
   (if has16 code then [u8 (u16 a2 / 256); u8 (Z.land (u16 a2) 0xff)] else [])).

(** insn16/libinsn/insn_genlongop.c:168-200 insn16_longOpcodeGenerate; [code] is
    the entry of g_longOpcodeMap *)
Definition generate_long (code a2 : Z) : bool * list Z :=
  if has16 code
  then ((a2 <? -32768) || (65535 <? a2),
        [u8 oLONGOP24; u8 code; u8 (u16 a2 / 256); u8 (Z.land (u16 a2) 0xff)])
  else (false, [u8 oLONGOP8; u8 code]).
