(** Properties of the pass of the optimizer for strings. *)

From Coq Require Import ZArith Bool List Lia.
From Verif Require Import State Opcodes Machine PoptLongModel StrOptModel StrOptSpec StrOptProofs StrOptCases.
Import ListNotations.
Open Scope Z_scope.

(** ** C95 The pass for strings ends, and deletes nothing but NOP and unnecessary STRDUP *)

Theorem C95_ends : forall l k m n, has_label l -> (length l <= k)%nat -> (16 < m)%nat -> (16 < n)%nat ->
  exists out, string_optimize k m n l = OResult out /\ shortened (upto_end l) out.
Proof. exact string_pass_ok. Qed.
Print Assumptions C95_ends.

(** Code in which no LAC stands directly in front of STRDUP is not changed.  Missing for
    other code: that the result does what the code did, which is refuted below. *)
Theorem C95_unchanged_partial : forall l k m n out, has_label l -> (length l <= k)%nat -> (16 < m)%nat -> (16 < n)%nat -> no_constant_dup l ->
  string_optimize k m n l = OResult out -> without_nops out = without_nops (upto_end l).
Proof. exact unchanged. Qed.
Print Assumptions C95_unchanged_partial.

(** The assignment of a string constant, a NOP; and a program of which STRDUP is deleted *)
Example C95_case : has_label str_code /\ no_constant_dup str_code /\
  string_optimize 9 17 17 str_code = OResult ([mkOp oLABEL 0 1] ++ assigned 3 0 0 4 ++ [mkOp oEND 0 0]) /\
  has_label dup_code /\ string_optimize 9 17 17 dup_code = OResult dup_opt.
Proof. split; [exact str_label|]. split; [exact str_no_dup|]. split; [reflexivity|]. split; [exact dup_label|reflexivity]. Qed.

(** The deletion of STRDUP changes the result of a comparison. *)
Theorem C95_preserves_refuted : exists l out s a b, has_label l /\
  (forall k m n, (length l <= k)%nat -> (16 < m)%nat -> (16 < n)%nat -> string_optimize k m n l = OResult out) /\
  top (exec_lib l s) = Some a /\ top (exec_lib out s) = Some b /\ a <> b.
Proof. exact dup_refuted. Qed.
Print Assumptions C95_preserves_refuted.

(** The unnecessary STRDUP of an assigned string constant is not deleted. *)
Theorem C95_constant_refuted : forall n off lev a, exists l, l = [mkOp oLABEL 0 1] ++ assigned n off lev a ++ [mkOp oEND 0 0] /\ has_label l /\
  forall k m p, (length l <= k)%nat -> (16 < m)%nat -> (16 < p)%nat -> string_optimize k m p l = OResult l.
Proof. exact constant_refuted. Qed.
Print Assumptions C95_constant_refuted.
