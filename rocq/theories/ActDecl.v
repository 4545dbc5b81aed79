(** Where the declaration of a procedure places its parameters. *)

From Coq Require Import ZArith Bool List Lia ZifyBool.
From Verif Require Import ExprModel ExprSpec ActModel ActSpec ActProofs.
From Verif Require Import DeclModel DeclSpec DeclVars DeclParms DeclCases.
Import ListNotations.
Open Scope Z_scope.

Lemma parameters_stacked n pp d off d' :
  formal_parameters n pp d = Done off d' -> length (syms d) = S pp ->
  exists m, syms d' = syms d ++ m /\ (total m <= 32768 -> off = - total m /\ stacked off m 0).
Proof.
  intros E Hn. unfold formal_parameters in E. unfold bind at 1, set_nparms in E.
  set (d0 := mkD _ _ _ _ _ _ _ _ _ _ _ _) in E.
  unfold bind at 1, token in E. unfold bind at 1 in E.
  match type of E with match ?m d0 with _ => _ end = _ => destruct (m d0) as [[] d1| | | |] eqn:E1 end; try discriminate.
  assert (H : exists l, syms d1 = syms d ++ l /\ gParms d1 = Z.of_nat (length l) /\ Forall (added_some (syms d1)) l).
  { destruct (_ =? tLPAREN).
    - unfold bind in E1. destruct (parameter_sections n n d0) as [[] d2| | | |] eqn:E2; try discriminate.
      apply sections_add in E2. apply expect_quiet in E1. destruct E1 as [a1 a2]. destruct E2 as (l & h1 & h2 & h3).
      exists l. rewrite a1, a2. split; [exact h1|]. split; [cbn in h2; lia|exact h3].
    - inversion E1; subst. exists []. cbn. rewrite app_nil_r. auto. }
  destruct H as (l & h1 & h2 & h3).
  unfold bind, nparms in E. rewrite h2, Nat2Z.id in E.
  assert (V : Forall is_var l).
  { eapply Forall_impl; [|exact h3]. intros s (b & v & hv & _). exists v. exact hv. }
  assert (X : Forall (fun s => 0 <= extent s) l).
  { eapply Forall_impl; [|exact h3]. intros s (b & v & hv & hb). unfold extent. rewrite hv. destruct b.
    - destruct hb as [_ ->]. lia.
    - destruct hb as (p & ts & t & _ & _ & _ & _ & ->). unfold u32. apply Z.mod_pos_bound. lia. }
  assert (pe : pp = (length (syms d) - 1)%nat) by (lia). rewrite pe in E.
  assert (Hb : (0 < length (syms d))%nat) by (lia).
  destruct (offsets_keep _ _ _ _ _ _ E l h1 V (le_n _) Hb) as (m & Hm & g0). exists m. split; [exact Hm|].
  intros Ht.
  assert (Hl : total l = total m).
  { clear -g0. induction g0 as [|s s' l m (v & o & e1 & ->) _ IH]; [reflexivity|]. cbn [total]. rewrite IH.
    unfold words_of, extent. rewrite e1. reflexivity. }
  apply (offsets_run (syms d) l []) in E; auto; try lia.
  2:{ rewrite app_nil_r. exact h1. }
  destruct E as [-> (l' & g1 & g2 & g3)]. rewrite app_nil_r in g1.
  assert (l' = m) by (apply (app_inv_head (syms d)); congruence). subst l'. split; [lia|exact g3].
Qed.

Lemma total_slots m ps : Forall2 (fun s p => words_of s = slot p) m ps -> total m = slots ps.
Proof. induction 1 as [|s p m ps E _ IH]; [reflexivity|]. cbn [total]. rewrite slots_cons, E, IH. reflexivity. Qed.
Lemma stacked_starts k m ps : Forall2 (fun s p => words_of s = slot p) m ps -> forall off, stacked off m 0 -> off = - slots ps ->
  map start m = map voff (parm_vars k ps).
Proof.
  induction 1 as [|s p m ps E _ IH]; intros off H O; [reflexivity|]. destruct H as (H1 & H2).
  cbn [map parm_vars]. f_equal; [unfold parm_var; cbn [voff]; lia|]. apply (IH _ H2). rewrite slots_cons in O. lia.
Qed.

Lemma declared_offsets : forall n pp d off d', formal_parameters n pp d = Done off d' -> length (syms d) = S pp ->
  exists m, syms d' = syms d ++ m /\
    forall k ps, Forall2 (fun s p => words_of s = slot p) m ps -> slots ps <= 32768 ->
      off = - slots ps /\ map start m = map voff (parm_vars k ps).
Proof.
  intros n pp d off d' E N. destruct (parameters_stacked _ _ _ _ _ E N) as (m & Hm & H). exists m. split; [exact Hm|].
  intros k ps F S. rewrite (total_slots _ _ F) in H. destruct (H S) as (O & St). split; [exact O|]. eapply stacked_starts; eauto.
Qed.

Lemma declared_offsets_case :
  formal_parameters 50 5 (at_start ex_proc ex_parms) = Done (-8) ex_parms_end /\
  length (syms (at_start ex_proc ex_parms)) = 6%nat /\
  exists m, syms ex_parms_end = syms (at_start ex_proc ex_parms) ++ m /\
    Forall2 (fun s p => words_of s = slot p) m [ByValue xInteger; ByVar xInteger; ByVar xInteger; ByValue xChar].
Proof.
  destruct parms_case as (A & B & _). split; [exact A|]. split; [exact B|].
  exists (skipn 6 (syms ex_parms_end)). split; [vm_compute; reflexivity|]. vm_compute. repeat constructor.
Qed.
