(** A case for the statements about the output of the compiler for whole programs: the
    program of RecCases.v, with the labels that the compiler takes. *)

From Coq Require Import ZArith Bool List Lia ZifyBool.
From Verif Require Import Words State Opcodes EncodeModel Machine VmSpec HeapModel OptSpec ExprModel ExprSpec ExprCases StmtModel StmtSpec StmtRun StmtCases
  ArrModel ArrCases ActModel ActSpec ActCases BlockModel BlockSpec BlockCases StartModel StartSpec StartCases RecModel RecSpec RecCode RecText RecProgram RecCases
  EncodeSpec RealMain RealCases RealText.
From Verif Require FinalModel FinalSpec.
From Verif Require Import StmtSpec.
Import ListNotations.
Open Scope Z_scope.

(** The compiler before the statements of the procedure and of the program *)
Definition tx_proc := mkComp (rc_toks ++ [semi]) [] [] 81 1 0 0 0.
Definition tx_code : list opType := Eval vm_compute in match proutine rc_procs 60 80 81 0 None [] tx_proc with SDone c => out c | _ => [] end.
Definition tx_main := mkComp (rc_text ++ [kt tPERIOD]) [] [] 82 0 0 0 0.
Definition tx_ops : list opType := Eval vm_compute in
  match pprogram rc_procs 60 79 6 (Some tx_code) rc_inits tx_main with SDone c => out c | _ => [] end.
Lemma tx_compiled n : exists c', proutine rc_procs (60 + n) 80 81 0 None [] tx_proc = SDone c' /\ out c' = tx_code /\ g_label c' = 82.
Proof. eexists. split; [vm_compute; reflexivity|]. split; reflexivity. Qed.
Lemma tx_program n : exists c', pprogram rc_procs (60 + n) 79 6 (Some tx_code) rc_inits tx_main = SDone c' /\ out c' = tx_ops.
Proof. eexists. split; [vm_compute; reflexivity|]. reflexivity. Qed.

Lemma tx_names : forall t, tk t = sPROC -> exists q d, nth_error rc_decls q = Some d /\ rc_procs t = d_proc d.
Proof. intros t _. exists 0%nat, rc_decl. split; reflexivity. Qed.
Lemma tx_made : made rc_procs 79 rc_decls (inner_code (Some tx_code)) (g_label tx_main).
Proof.
  destruct (procedure_compiles rc_procs rc_decls rc_declares 0%nat rc_decl eq_refl tx_proc semi [] 81 None ltac:(repeat split; vm_compute; congruence))
    as (c1 & m1 & N1 & C1 & _).
  destruct (tx_compiled N1) as (c2 & K1 & K2 & K3).
  assert (c1 = c2) by (pose proof (C1 (60 + N1)%nat ltac:(lia)) as Y; cbn [rc_decl d_proc d_dstack d_inits pLabel rc_proc] in Y; congruence). subst c2.
  replace (inner_code (Some tx_code)) with (tx_code ++ []) by apply app_nil_r.
  apply (made_more rc_procs 79 rc_decl 81 [] None semi [] tx_proc c1 N1 tx_code [] [] 82); auto.
  - cbn. lia.
  - apply made_none. cbn. lia.
  - repeat split; vm_compute; congruence.
  - vm_compute. congruence.
  - apply made_none. rewrite K3. lia.
Qed.

(** 30009 bytes of stack; the program starts at 38 *)
Lemma whole_case : exists f s s' k,
  FinalModel.finalize 100 (write_program tx_ops) FinalModel.FHT_PROGRAM 79 [] [] = FinalModel.FDone f /\ length (FinalModel.f_prog f) = 73%nat /\
  initialize at_real (fun _ => 77) = HV s /\ run k (FinalModel.f_prog f) 73 s = Some (Err eEXIT s') /\ rd s' 138 = Some 5050.
Proof.
  destruct (whole_program rc_procs rc_decls rc_declares tx_names rc_vars 6 rc_inits rc_ini rc_text rc_main rc_block rc_locals
    tx_main (kt tPERIOD) [] 79 (Some tx_code) rc_decls eq_refl eq_refl eq_refl eq_refl eq_refl eq_refl eq_refl ltac:(lia) tx_made
    (fun d => iff_refl _) ltac:(vm_compute; congruence)) as (c' & N & C1 & _ & X).
  destruct (tx_program N) as (c2 & K1 & K2). rewrite C1 in K1 by lia. injection K1 as <-. rewrite K2 in X.
  destruct (X eq_refl 100%nat [] ltac:(vm_compute; lia)) as (f & Fi & Y).
  assert (V : FinalModel.f_entry f = 38 /\ length (FinalModel.f_prog f) = 73%nat) by (clear Y; vm_compute in Fi; injection Fi as <-; split; reflexivity).
  destruct V as (V1 & V2).
  destruct (Y 49 101%nat) with (a := at_real) (junk := fun _ : Z => 77) (maxpc := 73) (Q := fun r : env => r rc_s = 5050)
    as (s & s' & r' & k & I & R & Qr & _ & _ & Ho).
  - intros [|[|q]] d H; try discriminate H. injection H as <-. vm_compute. congruence.
  - lia.
  - exact at_real_ok.
  - rewrite V1. reflexivity.
  - rewrite V2. lia.
  - vm_compute. reflexivity.
  - exact rc_main_means.
  - exists f, s, s', k. split; [exact Fi|]. split; [exact V2|]. split; [exact I|]. split; [exact R|].
    specialize (Ho rc_s ltac:(cbn; auto)). unfold contains in Ho. rewrite Qr in Ho. exact Ho.
Qed.
