(** Properties of HALT and EXIT. *)

From Coq Require Import ZArith Bool List Lia.
From Verif Require Import State Opcodes EncodeModel Machine VmSpec ExprModel ExprSpec ExprRun ExprLoad ExprCases StmtModel ArrModel ArrCases
  WriteModel WriteSpec WriteRun WriteCases FileModel FileSpec FileMain FileCases HaltModel HaltSpec HaltMain HaltCases.
Import ListNotations.
Open Scope Z_scope.

(** ** C101 HALT and EXIT *)

Theorem C101_end : forall lev ts w,
  gend (fun w => etype_of xInteger w = Some xInteger /\ forall y, In y (evars w) -> addressable lev y) ts w ->
  exists code,
    (forall c rest n, toks c = ts ++ rest -> g_level c = lev -> (4 * length (toks c) + 4 <= n)%nat ->
       exists c', end_statement n c = ADone c' /\ errorless c c' rest code) /\
    ends_with lev code (2 * Z.of_nat (length ts)) w.
Proof. exact ended_program. Qed.
Print Assumptions C101_end.

(** EXIT(x) *)
Example C101_case :
  gend (fun w => etype_of xInteger w = Some xInteger /\ forall y, In y (evars w) -> addressable 0 y) exit_tokens (Some (evar xw)) /\
  end_value fl_env (Some (evar xw)) = Some 300 /\ room vmf 8 /\
  (forall y, In y (end_vars (Some (evar xw))) -> located 0 vmf y (fl_env y)) /\
  exists c', end_statement 60 (start exit_tokens) = ADone c' /\ errs c' = [] /\ toks c' = [] /\ Forall wf_tok exit_tokens.
Proof.
  split; [exact exit_grammar|]. destruct exit_state as (A & B & C). split; [exact A|]. split; [exact B|]. split; [exact C|]. exact exit_compiled.
Qed.

(** What is accepted is HALT or EXIT(w) with an expression w (see C66 for [elax]). *)
Theorem C101_accepted : forall n c c', end_statement n c = ADone c' -> errs c' = errs c -> Forall wf_tok (toks c) ->
  exists ts w, toks c = ts ++ toks c' /\ gend (fun w => elax xInteger w = Some xInteger) ts w.
Proof. exact end_accepted. Qed.
Print Assumptions C101_accepted.
