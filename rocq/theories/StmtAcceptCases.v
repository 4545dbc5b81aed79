(** Witnesses for StmtAccept. *)

From Coq Require Import ZArith Bool List Lia.
From Verif Require Import State Opcodes EncodeModel Machine VmSpec ExprModel ExprSpec ExprCases StmtModel StmtSpec StmtAccept StmtCases.
Import ListNotations.
Open Scope Z_scope.

(** CASE x OF 2.5: y := y + 1 END; the token of 2.5 leaves the last integer in g_tknUInt *)
Lemma real_refuted : exists ts c',
  ts = tcase [vt x1] ([mkTok tREAL_CONST 0 0 nosym 1] ++ kt tCOLON :: tincr y1 1 ++ [kt tEND]) /\
  statement 100 (start_at 1 (ts ++ [semi])) = SDone c' /\ errs c' = [] /\ toks c' = [semi] /\
  forall o s, ~ gstmt o ts s.
Proof.
  do 2 eexists. split; [reflexivity|]. split; [vm_compute; reflexivity|]. split; [reflexivity|]. split; [reflexivity|].
  intros o s H. apply stmt_plain in H. unfold plain in H. rewrite Forall_forall in H.
  apply (H (mkTok tREAL_CONST 0 0 nosym 1)); [|reflexivity]. cbn. tauto.
Qed.

Lemma ex_known : Forall known (ex_tokens ++ [semi]).
Proof.
  repeat constructor; try (intros [H|H]; discriminate); try discriminate; cbn; try discriminate;
    intros k N K; destruct k; try discriminate; try reflexivity.
Qed.
Lemma ex_accepted : exists c', statement 200 (start_at 1 (ex_tokens ++ [semi])) = SDone c' /\ errs c' = [] /\ toks c' = [semi].
Proof. eexists. split; [vm_compute; reflexivity|]. split; reflexivity. Qed.
