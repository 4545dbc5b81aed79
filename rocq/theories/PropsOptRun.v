(** Properties of the whole of the optimizer. *)

From Coq Require Import ZArith Bool List Lia.
From Verif Require Import State Opcodes Machine VmSpec EncodeSpec OptSpec OptExcept PoptModel PoptLongModel StrOptSpec OptRunSpec OptRun OptPlain OptTotal
  OptRunCases.
Import ListNotations.
Open Scope Z_scope.

(** ** C97 The optimized program does what the program did *)

(** Missing: programs in the optimization of which a window occurs for which a pass is
    wrong (C35-C39). *)
Theorem C97_optimizer_partial : forall l k m n, has_label l -> Forall wf_op l ->
  Forall (fun t => harmless (visible t)) (met k m n l) ->
  optimize k m n l <> OBreaks /\
  forall out, optimize k m n l = OResult out -> preserved (upto_end l) out /\ Forall wf_op out.
Proof. exact optimize_fine. Qed.
Print Assumptions C97_optimizer_partial.

(** Labels, ends, calls and operations on files, strings, sets and real numbers stay, in
    their order.  Missing: as above. *)
Theorem C97_marks_partial : forall l k m n out, has_label l -> Forall wf_op l ->
  Forall (fun t => harmless (visible t)) (met k m n l) ->
  optimize k m n l = OResult out -> marked_ops out = marked_ops (upto_end l).
Proof. exact optimize_marks. Qed.
Print Assumptions C97_marks_partial.

(** In the optimization of a program without troublesome instructions, in which the stack
    adjustments add up to less than 32768 bytes, no such window occurs, and it ends: one number of iterations of the inner loops is enough for all
    programs, and the outer loop does not run more often than there are instructions. *)
Theorem C97_plain : exists enough : nat, forall l k m n, has_label l -> Forall wf_op l -> plain l ->
  (length l <= k)%nat -> (enough <= m)%nat -> (enough <= n)%nat ->
  exists out, optimize k m n l = OResult out /\
    preserved (upto_end l) out /\ Forall wf_op out /\ marked_ops out = marked_ops (upto_end l).
Proof. exact optimize_total. Qed.
Print Assumptions C97_plain.

(** A program with stack adjustments to be merged, constants to be folded, an instruction to be replaced, a comparison to
    be merged into a jump, a label, a call and an operation on a file *)
Example C97_case : has_label run_code /\ Forall wf_op run_code /\ plain run_code /\
  Forall (fun t => harmless (visible t)) (met 40 40 200 run_code) /\
  optimize 40 40 200 run_code = OResult run_opt /\ run_opt <> run_code /\
  marked_ops run_opt = [mkOp oLABEL 0 1; mkOp oLABEL 0 2; mkOp oPCAL 0 7; mkOp oSYSIO 0 3; mkOp oEND 0 0].
Proof.
  split; [exact run_label|]. split; [exact run_wf|]. split; [exact run_plain|]. split; [exact (plain_safe 40 40 200 run_code run_wf run_plain)|].
  split; [exact run_result|]. split; [discriminate|reflexivity].
Qed.
