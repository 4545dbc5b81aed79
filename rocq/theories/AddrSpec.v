(** Specification of ADDR.  Independent of the functions of AddrModel.v. *)

From Coq Require Import ZArith Bool List.
From Verif Require Import State Opcodes EncodeModel Machine VmSpec ExprModel ExprSpec ExprRun AddrModel.
Import ListNotations.
Open Scope Z_scope.

(** The token [v] is the name of a variable at the level and offset of [x]; a parameter passed
    by reference (0x5a) has its own memory there, which contains the address of the variable.
    0x45 to 0x58 without 0x51 (a string constant) and 0x54 (an object of an enumeration) *)
Definition names (v : tok) (x : var) : Prop := sLevel (tsym v) = vlev x /\ vOffset (tsym v) = voff x.
Definition own_variable (v : tok) : Prop := 0x45 <= tk v <= 0x58 /\ tk v <> 0x51 /\ tk v <> 0x54.
Definition reference (v : tok) : Prop := tk v = 0x5a.

(** ADDR(v) *)
Inductive gaddr : list tok -> tok -> Prop :=
| ga_addr a b v d : tk a = tSTDFUNC -> tsub a = txADDR -> tk b = tLPAREN -> tk d = tRPAREN -> gaddr [a; b; v; d] v.

(** The code puts the address of the variable on the stack and changes nothing else. *)
Definition gives_address (lev : Z) (code : list opType) (v : tok) (x : var) : Prop :=
  forall s p, room s 1 -> var_address lev s x p ->
    (own_variable v -> exists s', exec_list code s = Ok s' /\ pushed s s' [p]) /\
    (reference v -> forall a, contains s xWord p a -> 0 <= a < 65536 -> exists s', exec_list code s = Ok s' /\ pushed s s' [a]).
