(** Tools for the examples beside the theorems on the optimizer *)

From Coq Require Import ZArith Bool List Lia.
From Verif Require Import LongSpec LongProofs Words State Opcodes Machine VmSpec VmProofs EncodeSpec OptSpec OptPassSpec OptExcept PoptModel PoptLongModel OptRefute.
Import ListNotations.
Open Scope Z_scope.

Fixpoint parts (n : nat) (l : list opType) : list (list opType) :=
  match l with [] => [] | o :: l' => firstn n l :: parts n l' end.

Lemma within_parts l w : w <> [] -> within l w -> In w (parts (length w) l).
Proof.
  intros N (p & q & ->). induction p as [|x p IH]; cbn [app].
  - destruct w as [|o w]; [congruence|]. cbn [app parts]. left. cbn [length firstn]. f_equal. rewrite firstn_app, Nat.sub_diag, firstn_all.
    cbn [firstn]. apply app_nil_r.
  - right. exact IH.
Qed.
Lemma adjacent_parts l a b : adjacent l a b -> In [a; b] (parts 2 l).
Proof. intros (p & q & E). apply (within_parts l [a; b]); [discriminate|]. exists p, q. exact E. Qed.
Lemma adjacent3_parts l a b c : adjacent3 l a b c -> In [a; b; c] (parts 3 l).
Proof. intros (p & q & E). apply (within_parts l [a; b; c]); [discriminate|]. exists p, q. exact E. Qed.

Lemma wf_all l : forallb wf_opb l = true -> Forall wf_op l.
Proof. intros H. rewrite forallb_forall in H. apply Forall_forall. intros o Ho. apply wf_opb_spec, H, Ho. Qed.

Lemma signed32_unique w z : signed32 w z -> z = s32 w.
Proof. intros [A [k B]]. destruct (signed32_s32 w) as [C [k' D]]. lia. Qed.

(** The constant pushed by a concrete instruction *)
Ltac const H := unfold pushes in H; cbn in H;
  destruct H as [[? H]|[[? H]|[? H]]]; try discriminate; try (apply word16_iff in H; vm_compute in H).
(** none of the windows of a concrete table is an exception *)
Ltac windows := 
  intros; 
  match goal with
  | H : adjacent _ _ _ |- _ => apply adjacent_parts in H; vm_compute in H; repeat (destruct H as [H|H]); try contradiction; try discriminate H; injection H; intros; subst
  | H : adjacent3 _ _ _ _ |- _ => apply adjacent3_parts in H; vm_compute in H; repeat (destruct H as [H|H]); try contradiction; try discriminate H; injection H; intros; subst
  | H : within _ _ |- _ => apply within_parts in H; [|discriminate]; vm_compute in H; repeat (destruct H as [H|H]); try contradiction; try discriminate H; injection H; intros; subst
  end;
  let B := fresh in intros B; inversion B; subst;
  repeat match goal with H : long_const _ _ _ |- _ => destruct H as (? & ? & ? & ? & ?) end;
  repeat match goal with H : pushes _ _ |- _ => const H end; subst;
  repeat match goal with H : signed16 _ ?z |- _ => apply signed16_unique in H; vm_compute in H; subst z
                       | H : signed32 _ ?z |- _ => apply signed32_unique in H; vm_compute in H; subst z
                       | H : word16 ?r _ |- _ => apply word16_iff in H; vm_compute in H; subst r end;
  unfold fits32 in *; cbn in *; repeat match goal with H : _ \/ _ |- _ => destruct H end; try discriminate; try lia; try contradiction; try congruence.
