(** A case for the statements about the whole way from the text to the machine. *)

From Coq Require Import ZArith Bool List Lia ZifyBool.
From Verif Require Import Words State Opcodes EncodeModel Machine VmSpec HeapModel OptSpec ExprModel ExprSpec ExprCases StmtModel StmtSpec StmtRun StmtCases
  ArrModel ArrCases ActModel ActSpec ActCases BlockModel BlockSpec BlockCases StartModel StartSpec StartCases RecModel RecSpec RecCode RecProgram RecCases EncodeSpec RealMain.
From Verif Require FinalModel FinalSpec.
From Verif Require Import StmtSpec.
Import ListNotations.
Open Scope Z_scope.

(** The code of the program of RecCases.v *)
Definition rl_proc : list opType := Eval vm_compute in
  match proutine rc_procs 60 80 81 0 None [] (start_at 1 (rc_toks ++ [semi])) with SDone c => out c | _ => [] end.
Definition rl_ops : list opType := Eval vm_compute in
  match pprogram rc_procs 60 9 6 (Some rl_proc) rc_inits (start_at 0 (rc_text ++ [kt tPERIOD])) with SDone c => out c | _ => [] end.
Lemma rl_compiled n : exists c1 c2, proutine rc_procs (60 + n) 80 81 0 None [] (start_at 1 (rc_toks ++ [semi])) = SDone c1 /\ out c1 = rl_proc /\
  pprogram rc_procs (60 + n) 9 6 (Some rl_proc) rc_inits (start_at 0 (rc_text ++ [kt tPERIOD])) = SDone c2 /\ out c2 = rl_ops.
Proof. eexists. eexists. split; [vm_compute; reflexivity|]. split; [reflexivity|]. split; [vm_compute; reflexivity|]. reflexivity. Qed.

Lemma labels_nodup ops : NoDup (labels ops) -> FinalSpec.labels_once ops.
Proof.
  intros N pre p mid q post -> Lp Lq E. unfold labels in N. rewrite filter_app, map_app in N. cbn [filter] in N. rewrite Lp in N. cbn [map] in N.
  apply NoDup_remove_2 in N. apply N. apply in_or_app. right. apply in_map_iff. exists q. split; [congruence|].
  apply filter_In. split; [apply in_elt|]. rewrite Lq. reflexivity.
Qed.
Definition wf_opb (p : opType) : bool :=
  (0 <=? op p) && (op p <? 256) && (0 <=? arg1 p) && (arg1 p <? 256) && (0 <=? arg2 p) && (arg2 p <? 65536) &&
  (Z.testbit (op p) 6 || (arg1 p =? 0)) && (Z.testbit (op p) 7 || (arg2 p =? 0)).
Lemma wf_op_b p : wf_opb p = true -> wf_op p.
Proof.
  unfold wf_opb, wf_op. intros H. destruct (Z.testbit (op p) 6), (Z.testbit (op p) 7); cbn [orb] in H; repeat split; try lia; discriminate.
Qed.
Lemma text_b body : forallb wf_opb body = true -> forallb (fun p => negb (op p =? oEND)) body = true -> FinalSpec.program_text (body ++ [the_end]).
Proof.
  rewrite !forallb_forall. intros H1 H2. exists body. split; [reflexivity|]. split; apply Forall_forall; intros p I.
  - apply wf_op_b, H1, I.
  - specialize (H2 p I). lia.
Qed.
Lemma rl_text : FinalSpec.program_text rl_ops.
Proof. apply (text_b (removelast rl_ops)); reflexivity. Qed.
Lemma rl_once : FinalSpec.labels_once rl_ops.
Proof. apply labels_nodup. vm_compute. repeat first [apply NoDup_nil|apply NoDup_cons; [cbn; intuition discriminate|]]. Qed.
Lemma rl_signed : forall p, In p rl_ops -> ~ FinalSpec.unsigned_branch (op p).
Proof. apply Forall_forall. unfold rl_ops. repeat constructor; vm_compute; intuition discriminate. Qed.

(** 30009 bytes of stack; the program starts at 38 *)
Definition at_real := mkAttr 256 5 30009 506 (Some [72; 101; 108; 108; 111]) 38.
Lemma at_real_ok : startable at_real.
Proof. destruct at_rec_ok as [A B C D E]. constructor; try assumption. Qed.

Lemma real_case : exists f s s' k,
  FinalModel.finalize 100 (write_program rl_ops) FinalModel.FHT_PROGRAM 9 [] [] = FinalModel.FDone f /\ length (FinalModel.f_prog f) = 73%nat /\
  initialize at_real (fun _ => 77) = HV s /\ run k (FinalModel.f_prog f) 73 s = Some (Err eEXIT s') /\ rd s' 138 = Some 5050.
Proof.
  destruct (program_executed rc_procs rc_decls rc_declares rc_vars 6 rc_inits rc_ini rc_text rc_main rc_block rc_locals
    (start_at 0 (rc_text ++ [kt tPERIOD])) (kt tPERIOD) [] 9 (Some rl_proc)
    eq_refl eq_refl eq_refl eq_refl ltac:(vm_compute; congruence) ltac:(vm_compute; congruence) ltac:(lia))
    as (c2 & main & N2 & C2 & E2 & O2 & X).
  destruct (rl_compiled N2) as (c1 & c2' & K1 & K2 & K3 & K4). rewrite C2 in K3 by lia. injection K3 as <-.
  cbn [start_at out app] in O2. rewrite K4 in O2.
  destruct (FinalModel.finalize 100 (write_program rl_ops) FinalModel.FHT_PROGRAM 9 [] []) as [| |f] eqn:F; [vm_compute in F; discriminate F|vm_compute in F; discriminate F|].
  assert (V : FinalModel.f_entry f = 38 /\ length (FinalModel.f_prog f) = 73%nat) by (vm_compute in F; injection F as <-; split; reflexivity).
  destruct V as (V1 & V2).
  destruct (X rl_ops (length rl_proc)) with (nf := 100%nat) (syms := @nil FinalModel.symbol) (rels := @nil FinalModel.reloc) (f := f)
    (D := 49) (n := 101%nat) (a := at_real) (junk := fun _ : Z => 77) (maxpc := 73) (Q := fun r : env => r rc_s = 5050)
    as (s & s' & r' & k & I & R & Qr & _ & _ & Ho).
  - pose proof (stands_at rl_proc (main ++ [mkOp oEND 0 0]) []) as Sa. rewrite app_nil_r in Sa. rewrite O2. exact Sa.
  - intros [|[|q]] d H; try discriminate H. injection H as <-. exists rl_proc, 0%nat. split.
    + destruct (procedure_compiles rc_procs rc_decls rc_declares 0%nat rc_decl eq_refl _ _ _ _ None rc_before) as (c1' & m1 & N1 & C1 & _).
      destruct (rl_compiled N1) as (c1'' & c2' & K1' & K2' & _ & _). 
      assert (E1 : c1' = c1'') by (pose proof (C1 (60 + N1)%nat ltac:(lia)) as Y; cbn [rc_decl d_proc d_dstack d_inits pLabel rc_proc] in Y; rewrite Y in K1'; congruence). subst c1''.
      exists (start_at 1 (rc_toks ++ [semi])), semi, [], 81, None, c1', N1. split; [exact rc_before|]. split; [exact C1|exact K2'].
    + rewrite O2. apply (stands_at [] rl_proc).
  - exact rl_text.
  - exact rl_once.
  - vm_compute. reflexivity.
  - exact rl_signed.
  - vm_compute. lia.
  - exact F.
  - intros [|[|q]] d H; try discriminate H. injection H as <-. vm_compute. congruence.
  - lia.
  - exact at_real_ok.
  - rewrite V1. reflexivity.
  - rewrite V2. lia.
  - vm_compute. reflexivity.
  - exact rc_main_means.
  - exists f, s, s', k. split; [reflexivity|]. split; [exact V2|]. split; [exact I|]. split; [exact R|].
    specialize (Ho rc_s ltac:(cbn; auto)). unfold contains in Ho. rewrite Qr in Ho. exact Ho.
Qed.
