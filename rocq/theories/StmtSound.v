(** All statements. *)

From Coq Require Import ZArith Bool List Lia ZifyBool.
From Verif Require Import Words State Opcodes EncodeModel Machine VmSpec OptSpec ExprModel ExprSpec ExprRun StmtModel StmtSpec StmtRun StmtMain StmtLoops StmtFor StmtCase.
Import ListNotations.
Open Scope Z_scope.

Theorem all_sound lev xs :
  (forall o ts st, gstmt o ts st -> ok_stmt lev xs o ts st) /\
  (forall ts ss, gstmts ts ss -> ok_stmts lev xs ts ss) /\
  (forall ts cs, gcases ts cs -> ok_cases lev xs ts cs).
Proof.
  apply stmt_grammar_ind.
  - apply main_empty.
  - intros. apply main_assign; assumption.
  - intros. eapply main_if; eassumption.
  - intros. apply main_ifelse; assumption.
  - intros. apply main_while; assumption.
  - intros. apply main_repeat; assumption.
  - intros. apply main_for; assumption.
  - intros. apply main_case; assumption.
  - intros. apply main_block; assumption.
  - intros. apply main_break; assumption.
  - intros. apply main_continue; assumption.
  - intros. eapply main_one; eassumption.
  - intros. eapply main_more; eassumption.
  - intros ts ks a o us s b G Ha _ IH Hb. apply (main_last lev xs ts ks a o us s [] b G Ha IH Hb). auto.
  - intros ts ks a o us s d b G Ha _ IH Hd Hb. apply (main_last lev xs ts ks a o us s [d] b G Ha IH Hb). eauto.
  - intros. eapply main_cases; eassumption.
  - intros a o us s b Ha _ IH Hb. apply (main_else lev xs a o us s [] b Ha IH Hb). auto.
  - intros a o us s d b Ha _ IH Hd Hb. apply (main_else lev xs a o us s [d] b Ha IH Hb). eauto.
Qed.
