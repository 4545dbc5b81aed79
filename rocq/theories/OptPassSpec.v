(** What the theorems say about an iteration of a pass of the optimizer: [step t i]
    is the iteration at position [i] on the table [t]. *)

From Coq Require Import ZArith List.
From Verif Require Import State Opcodes Machine VmSpec EncodeSpec OptSpec PoptModel.
Import ListNotations.
Open Scope Z_scope.

(** Whenever the instructions in the window meet the condition, the iteration does
    not break (read outside of the window, overflow, divide by zero), and the new
    contents do what the old ones did. *)
Definition pass_sound (step : list opType -> nat -> tout) (good : list opType -> Prop) : Prop :=
  forall t i, Forall wf_op t -> good (visible t) ->
    step t i <> Broken /\
    forall t' nx ch, step t i = Next t' nx ch -> preserved t t' /\ Forall wf_op t'.

(** An iteration turns [t] into code which does something else in some state. *)
Definition miscompiled (step : list opType -> nat -> tout) (t : list opType) : Prop :=
  Forall wf_op t /\
  exists i t' nx ch, step t i = Next t' nx ch /\ ~ refines (code t) (code t').

(** An iteration on [t] leaves the defined behaviour of C. *)
Definition breaks (step : list opType -> nat -> tout) (t : list opType) : Prop :=
  Forall wf_op t /\ exists i, step t i = Broken.
