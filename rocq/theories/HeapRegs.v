(** The functions of the heap modify memory and the free list only, no matter
    what the heap looks like *)

From Coq Require Import ZArith Bool List Lia.
From Verif Require Import Words State HeapModel.
Import ListNotations.
Open Scope Z_scope.

Definition regs (s s' : st) : Prop :=
  cf s' = cf s /\ sp s' = sp s /\ csp s' = csp s /\ fp s' = fp s /\ pc s' = pc s /\ lsp s' = lsp s.

Lemma regs_refl s : regs s s.
Proof. unfold regs. repeat (split; [reflexivity|]). reflexivity. Qed.

Lemma regs_trans s1 s2 s3 : regs s1 s2 -> regs s2 s3 -> regs s1 s3.
Proof. unfold regs. intuition congruence. Qed.

Lemma hbind_v {A B} (x : hr A) (f : A -> hr B) b : hbind x f = HV b -> exists a, x = HV a /\ f a = HV b.
Proof. destruct x; cbn; intros H; try discriminate H. exists a. split; [reflexivity | exact H]. Qed.

Lemma hput_regs s a k v s' : hput s a k v = HV s' -> regs s s'.
Proof.
  unfold hput. destruct (a mod 2 =? 0); [|discriminate]. unfold wr. destruct (in_word s (a / 2 + k)); [|discriminate].
  cbn. intros H. injection H as <-. unfold regs. cbn. repeat (split; [reflexivity|]). reflexivity.
Qed.

Lemma with_fch_regs s c : regs s (with_fch s c).
Proof. unfold regs. cbn. repeat (split; [reflexivity|]). reflexivity. Qed.

Ltac hstep_regs :=
  repeat match goal with
  | H : HV _ = HV _ |- _ => injection H; clear H; intros; subst
  | H : HU = HV _ |- _ => discriminate H
  | H : HH = HV _ |- _ => discriminate H
  | H : (let '(_, _) := ?x in _) = HV _ |- _ => destruct x
  | H : hbind _ _ = HV _ |- _ => apply hbind_v in H; destruct H as (? & ? & H)
  | H : (if ?b then _ else _) = HV _ |- _ => destruct b
  | H : hput ?s _ _ _ = HV ?s' |- _ => apply hput_regs in H
  end.

Ltac chain_regs :=
  repeat match goal with
  | |- regs ?s ?s => apply regs_refl
  | |- regs _ (with_fch _ _) => eapply regs_trans; [|apply with_fch_regs]
  | H : regs ?a ?b |- regs _ ?b => apply (regs_trans _ a _); [clear H | exact H]
  end.

Lemma set_forward_regs s a v s' : set_forward s a v = HV s' -> regs s s'.
Proof. unfold set_forward. intros H. hstep_regs. chain_regs. Qed.
Lemma set_in_use_regs s a v s' : set_in_use s a v = HV s' -> regs s s'.
Proof. unfold set_in_use. intros H. hstep_regs; chain_regs. Qed.
Lemma set_back_regs s a v s' : set_back s a v = HV s' -> regs s s'.
Proof. unfold set_back. intros H. hstep_regs. chain_regs. Qed.
Lemma set_prev_regs s a v s' : set_prev s a v = HV s' -> regs s s'.
Proof. unfold set_prev. apply hput_regs. Qed.
Lemma set_next_regs s a v s' : set_next s a v = HV s' -> regs s s'.
Proof. unfold set_next. apply hput_regs. Qed.

Ltac setters :=
  repeat match goal with
  | H : set_forward _ _ _ = HV _ |- _ => apply set_forward_regs in H
  | H : set_in_use _ _ _ = HV _ |- _ => apply set_in_use_regs in H
  | H : set_back _ _ _ = HV _ |- _ => apply set_back_regs in H
  | H : set_prev _ _ _ = HV _ |- _ => apply set_prev_regs in H
  | H : set_next _ _ _ = HV _ |- _ => apply set_next_regs in H
  end.

Lemma add_loop_regs n : forall s c pv cur s', add_loop n s c pv cur = HV s' -> regs s s'.
Proof.
  induction n as [|n IH]; intros s c pv cur s' H; [discriminate H|]. cbn [add_loop] in H.
  hstep_regs; setters; chain_regs. exact (IH _ _ _ _ _ H).
Qed.

Lemma add_chunk_regs s c s' : add_chunk s c = HV s' -> regs s s'.
Proof. apply add_loop_regs. Qed.

Lemma remove_chunk_regs s c s' : remove_chunk s c = HV s' -> regs s s'.
Proof.
  unfold remove_chunk. intros H. hstep_regs; setters; chain_regs;
    match goal with H : regs (with_fch _ _) _ |- _ => exact H end.
Qed.

Lemma dispose_chunk_regs s c s' : dispose_chunk s c = HV s' -> regs s s'.
Proof.
  unfold dispose_chunk. intros H. hstep_regs;
  repeat match goal with
  | H : add_chunk _ _ = HV _ |- _ => apply add_chunk_regs in H
  | H : remove_chunk _ _ = HV _ |- _ => apply remove_chunk_regs in H
  end; setters; chain_regs.
Qed.

Lemma alloc_loop_regs n : forall s size cur s' a, alloc_loop n s size cur = HV (s', a) -> regs s s'.
Proof.
  induction n as [|n IH]; intros s size cur s' a H; [discriminate H|]. cbn [alloc_loop] in H.
  hstep_regs;
  repeat match goal with
  | H : dispose_chunk _ _ = HV _ |- _ => apply dispose_chunk_regs in H
  | H : remove_chunk _ _ = HV _ |- _ => apply remove_chunk_regs in H
  end; setters; chain_regs. exact (IH _ _ _ _ _ H).
Qed.

Lemma alloc_regs s n s' a : alloc s n = HV (s', a) -> regs s s'.
Proof. apply alloc_loop_regs. Qed.

Lemma free_regs s a s' e : free s a = HV (s', e) -> regs s s'.
Proof.
  unfold free. intros H. hstep_regs; try apply regs_refl;
  repeat match goal with H : dispose_chunk _ _ = HV _ |- _ => apply dispose_chunk_regs in H end; setters; chain_regs.
Qed.

Lemma free_tmp_regs s a n s' e : free_tmp s a n = HV (s', e) -> regs s s'.
Proof.
  unfold free_tmp. destruct (negb _); [apply free_regs|]. intros H. injection H as <- <-. apply regs_refl.
Qed.

Lemma alloc_tmp_regs s n s' a al : alloc_tmp s n = HV (s', a, al) -> regs s s'.
Proof.
  unfold alloc_tmp. destruct (_ && _); intros H.
  - apply hbind_v in H. destruct H as ([s1 a1] & H1 & H2). injection H2 as -> -> _. exact (alloc_regs _ _ _ _ H1).
  - injection H as <- _ _. apply regs_refl.
Qed.
