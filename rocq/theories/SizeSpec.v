(** Specification of SIZEOF.  Independent of the functions of SizeModel.v. *)

From Coq Require Import ZArith Bool List.
From Verif Require Import State Opcodes EncodeModel Machine VmSpec ExprModel ExprSpec ExprRun SizeModel.
Import ListNotations.
Open Scope Z_scope.

(** The number of bytes of what [v] denotes: [alloc] of a type, [passed] of the variable passed
    by reference as parameter [v].  0x51 is a string constant, 0x54 an object of an
    enumeration, 0x52 a pointer. *)
Inductive size_is (alloc passed : tok -> Z) (v : tok) : Z -> Prop :=
| sz_variable : 0x45 <= tk v <= 0x58 -> ~ In (tk v) [0x51; 0x52; 0x54] -> size_is alloc passed v (vSize (tsym v))
| sz_pointer : tk v = 0x52 -> size_is alloc passed v 2
| sz_type : tk v = 0x44 -> size_is alloc passed v (alloc v)
| sz_reference : tk v = 0x5a -> size_is alloc passed v (passed v).

(** SIZEOF(v) *)
Inductive gsize : list tok -> tok -> Prop :=
| gs_size a b v d : tk a = tSTDFUNC -> tsub a = txSIZEOF -> tk b = tLPAREN -> tk d = tRPAREN -> gsize [a; b; v; d] v.

(** The code puts the Integer [z] on the stack and changes nothing else. *)
Definition gives (code : list opType) (z : Z) : Prop :=
  forall s, room s 1 -> exists s', exec_list code s = Ok s' /\ pushed s s' (words xInteger z) /\ -32768 <= z <= 32767.
