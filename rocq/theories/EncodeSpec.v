(** Specification of the instruction format. *)

From Coq Require Import ZArith Bool List.
From Verif Require Import Opcodes Machine.
Import ListNotations.
Open Scope Z_scope.

(** Bit 6 of the opcode tells whether an 8-bit operand follows, bit 7 whether
    a 16-bit operand follows. *)
Definition insn_length (o : Z) : Z :=
  match Z.testbit o 6, Z.testbit o 7 with
  | false, false => 1 | true, false => 2 | false, true => 3 | true, true => 4
  end.

(** An instruction as the tools hold it: byte opcode, operands in range, absent
    operands zero. *)
Definition wf_op (p : opType) : Prop :=
  0 <= op p < 256 /\ 0 <= arg1 p < 256 /\ 0 <= arg2 p < 65536 /\
  (Z.testbit (op p) 6 = false -> arg1 p = 0) /\ (Z.testbit (op p) 7 = false -> arg2 p = 0).

Definition the_end : opType := mkOp oEND 0 0.

(** The two long comparisons families' branch codes in g_longOpcodeMap *)
Definition long_branch (code : Z) : Prop := 0xc0 <= code <= 0xcf.
