(** HALT and EXIT: cases. *)

From Coq Require Import ZArith Bool List Arith Lia ZifyBool.
From Verif Require Import Words State Opcodes EncodeModel Machine VmSpec ExprModel ExprSpec ExprRun ExprOps ExprLoad ExprProofs ExprCases
  StmtModel ArrModel ArrCases WriteModel WriteSpec WriteRun WriteMain WriteCases FileModel FileSpec FileMain FileCases HaltModel HaltSpec HaltMain.
Import ListNotations.
Open Scope Z_scope.

(** EXIT(x); x contains 300 *)
Definition exit_tokens := [std txEXIT; kt tLPAREN; vt xw; kt tRPAREN].
Lemma exit_grammar : gend (fun w => etype_of xInteger w = Some xInteger /\ forall y, In y (evars w) -> addressable 0 y) exit_tokens (Some (evar xw)).
Proof.
  apply (ge_exit _ (std txEXIT) (kt tLPAREN) [vt xw] (evar xw) (kt tRPAREN)); try reflexivity.
  - apply gvar. cbn. intuition discriminate.
  - split; [reflexivity|]. intros y [<-|[]]. repeat split; vm_compute; congruence.
Qed.
Lemma exit_state : end_value fl_env (Some (evar xw)) = Some 300 /\ room vmf 8 /\
  forall y, In y (end_vars (Some (evar xw))) -> located 0 vmf y (fl_env y).
Proof.
  split; [reflexivity|]. split; [run|]. intros y H. apply (proj1 (proj2 fl_state)). right. exact H.
Qed.
Lemma exit_compiled : exists c', end_statement 60 (start exit_tokens) = ADone c' /\ errs c' = [] /\ toks c' = [] /\ Forall wf_tok exit_tokens.
Proof.
  eexists. split; [vm_compute; reflexivity|]. split; [reflexivity|]. split; [reflexivity|].
  repeat constructor; try discriminate; intros k K Q; destruct k; cbn in Q; try discriminate Q; cbn in K; try tauto; reflexivity.
Qed.

