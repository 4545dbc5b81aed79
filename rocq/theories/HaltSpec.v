(** Specification of HALT and EXIT.  Independent of the functions of HaltModel.v. *)

From Coq Require Import ZArith Bool List.
From Verif Require Import State Opcodes EncodeModel Machine VmSpec ExprModel ExprSpec StmtModel HaltModel.
Import ListNotations.
Open Scope Z_scope.

(** HALT, EXIT(w) *)
Inductive gend (good : expr -> Prop) : list tok -> option expr -> Prop :=
| ge_halt a : tk a = tSTDPROC -> tsub a = txHALT -> gend good [a] None
| ge_exit a b ts w d : tk a = tSTDPROC -> tsub a = txEXIT -> tk b = tLPAREN -> gexpr ts w -> good w -> tk d = tRPAREN ->
    gend good (a :: b :: ts ++ [d]) (Some w).

Definition end_vars (w : option expr) : list var := match w with Some e => evars e | None => [] end.
Definition end_value (env : var -> Z) (w : option expr) : option Z :=
  match w with Some e => evalue env xInteger e | None => Some 0 end.

(** The code ends the program, whatever follows; the exit code is the value of [w]. *)
Definition ends_with (lev : Z) (code : list opType) (k : Z) (w : option expr) : Prop :=
  forall env z s more, end_value env w = Some z -> room s k -> (forall y, In y (end_vars w) -> located lev s y (env y)) ->
    exit_code (code ++ more) s = Some z.
