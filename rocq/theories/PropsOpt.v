(** Properties C35 to C40: the peephole optimizer *)

From Coq Require Import ZArith Bool List.
From Verif Require Import State Opcodes Machine VmSpec EncodeSpec OptSpec OptPassSpec OptExcept PoptModel PoptLongModel
  OptUnaryStep OptBinary OptBranch OptMemStep OptLong OptLongBin OptRefute OptExamples Samples.
Import ListNotations.
Open Scope Z_scope.

(** The pass over pairs of entries (popt_UnaryOptimize): folding and reduction of
    operations whose topmost operand is a constant *)
Theorem C35_unary_pass_partial :
  pass_sound (table_step unary_body) (fun v => forall a b, adjacent v a b -> ~ unary_bad a b).
Proof. exact unary_table. Qed.
Print Assumptions C35_unary_pass_partial.

(** -(-5) is folded *)
Example C35_unary_example :
  let t := [push 65531; o1 oNEG; mkOp oST 0 10] in
  Forall wf_op t /\ (fun v => forall a b, adjacent v a b -> ~ unary_bad a b) (visible t) /\
  table_step unary_body t 0 = Next [mkOp oPUSHB 5 0; nop; mkOp oST 0 10] 0 1.
Proof. cbv zeta. split; [apply wf_all; reflexivity|]. split; [windows|]. reflexivity. Qed.

(** Constants which are folded wrongly, or the folding of which is undefined; the
    tables are lists of instructions in OptRefute.v *)
Theorem C35_folding_refuted :
  Forall (miscompiled (table_step unary_body)) (map snd unary_fold_tables) /\
  Forall (miscompiled (table_step binary_body)) (map snd binary_fold_tables) /\
  Forall (breaks (table_step binary_body)) (map snd binary_fold_breaks).
Proof. exact (conj unary_fold_mis (conj binary_fold_mis binary_fold_brk)). Qed.
Print Assumptions C35_folding_refuted.

(** The pass over three entries (popt_BinaryOptimize): folding and reduction of
    operations with a constant operand *)
Theorem C36_binary_pass_partial :
  pass_sound (table_step binary_body) (fun v => forall a b o, adjacent3 v a b o -> ~ binary_bad a b o).
Proof. exact binary_table. Qed.
Print Assumptions C36_binary_pass_partial.

(** x * 8 in front of a store *)
Example C36_binary_example :
  let t := [push 8; mkOp oLDS 0 4; o1 oMUL; mkOp oST 0 10] in
  Forall wf_op t /\ (fun v => forall a b o, adjacent3 v a b o -> ~ binary_bad a b o) (visible t) /\
  table_step binary_body t 0 = Next [mkOp oLDS 0 4; mkOp oPUSH 0 3; o1 oSLL; mkOp oST 0 10] 0 1.
Proof. cbv zeta. split; [apply wf_all; reflexivity|]. split; [windows|]. reflexivity. Qed.

Theorem C36_reduction_refuted :
  Forall (miscompiled (table_step unary_body)) (map snd unary_reduce_tables) /\
  Forall (miscompiled (table_step binary_body)) (map snd binary_reduce_tables).
Proof. exact (conj unary_reduce_mis binary_reduce_mis). Qed.
Print Assumptions C36_reduction_refuted.

(** popt_BranchOptimize *)
Theorem C37_branch_pass_partial :
  pass_sound (table_step branch_body) (fun v => forall a b, adjacent v a b -> ~ branch_bad a b).
Proof. exact branch_table. Qed.
Print Assumptions C37_branch_pass_partial.

Example C37_branch_example :
  let t := [mkOp oLD 0 10; mkOp oLD 0 12; o1 oLT; mkOp oJEQUZ 0 7] in
  Forall wf_op t /\ (fun v => forall a b, adjacent v a b -> ~ branch_bad a b) (visible t) /\
  table_step branch_body t 2 = Next [mkOp oLD 0 10; mkOp oLD 0 12; nop; mkOp oJGTE 0 7] 2 1.
Proof. cbv zeta. split; [apply wf_all; reflexivity|]. split; [windows|]. reflexivity. Qed.

Theorem C37_branch_refuted :
  Forall (miscompiled (table_step branch_body)) (map snd branch_tables).
Proof. exact branch_mis. Qed.
Print Assumptions C37_branch_refuted.

(** popt_StackOrderOptimize *)
Theorem C38_stack_pass_partial :
  pass_sound (table_step stack_body) (fun v => forall z a b, adjacent3 v z a b -> ~ stack_bad z a b).
Proof. exact stack_table. Qed.
Print Assumptions C38_stack_pass_partial.

Example C38_stack_example :
  let t := [mkOp oLD 0 10; mkOp oLD 0 12; o1 oXCHG; o1 oSUB] in
  Forall wf_op t /\ (fun v => forall z a b, adjacent3 v z a b -> ~ stack_bad z a b) (visible t) /\
  table_step stack_body t 2 = Next [mkOp oLD 0 12; mkOp oLD 0 10; nop; o1 oSUB] 2 0.
Proof. cbv zeta. split; [apply wf_all; reflexivity|]. split; [windows|]. reflexivity. Qed.

(** popt_LoadOptimize *)
Theorem C38_load_pass_partial :
  pass_sound (table_step load_body) (fun v =>
    (forall a b, adjacent v a b -> ~ load_bad a b) /\ (forall a b o, adjacent3 v a b o -> ~ load_multi_bad a b o)).
Proof. intros t i W [H1 H2]. exact (load_table t i W H1 H2). Qed.
Print Assumptions C38_load_pass_partial.

Example C38_load_example :
  let t := [push 4; mkOp oLDSX 1 6; o1 oADD] in
  Forall wf_op t /\ (fun v =>
    (forall a b, adjacent v a b -> ~ load_bad a b) /\ (forall a b o, adjacent3 v a b o -> ~ load_multi_bad a b o)) (visible t) /\
  table_step load_body t 0 = Next [nop; mkOp oLDS 1 10; o1 oADD] 0 1.
Proof. cbv zeta. split; [apply wf_all; reflexivity|]. split; [split; windows|]. reflexivity. Qed.

(** popt_StoreOptimize *)
Theorem C38_store_pass_partial :
  pass_sound (table_step store_body) (fun v =>
    (forall a b, adjacent v a b -> ~ store_bad a b) /\ (forall a b o, adjacent3 v a b o -> ~ storex_bad a b o)).
Proof. intros t i W [H1 H2]. exact (store_table t i W H1 H2). Qed.
Print Assumptions C38_store_pass_partial.

Example C38_store_example :
  let t := [mkOp oST 0 10; mkOp oLD 0 10; o1 oADD] in
  Forall wf_op t /\ (fun v =>
    (forall a b, adjacent v a b -> ~ store_bad a b) /\ (forall a b o, adjacent3 v a b o -> ~ storex_bad a b o)) (visible t) /\
  table_step store_body t 0 = Next [mkOp oDUP 0 0; mkOp oST 0 10; o1 oADD] 2 1.
Proof. cbv zeta. split; [apply wf_all; reflexivity|]. split; [split; windows|]. reflexivity. Qed.

Theorem C38_memory_refuted :
  Forall (miscompiled (table_step stack_body)) (map snd stack_tables) /\
  Forall (miscompiled (table_step load_body)) (map snd load_tables) /\
  Forall (miscompiled (table_step store_body)) (map snd store_tables).
Proof. exact (conj stack_mis (conj load_mis store_mis)). Qed.
Print Assumptions C38_memory_refuted.

(** popt_LongUnaryOptimize *)
Theorem C39_long_unary_pass_partial :
  pass_sound long_unary_step (fun v =>
    (forall p0 p1 o, adjacent3 v p0 p1 o -> ~ long_unary_bad p0 p1 o) /\ ~ long_first_bad v).
Proof. intros t i W [H1 H2]. exact (long_unary_table t i W H1 H2). Qed.
Print Assumptions C39_long_unary_pass_partial.

Example C39_long_unary_example :
  let t := [push 65535; push 0; lng 0x43; mkOp oST 0 10] in
  Forall wf_op t /\ (fun v =>
    (forall p0 p1 o, adjacent3 v p0 p1 o -> ~ long_unary_bad p0 p1 o) /\ ~ long_first_bad v) (visible t) /\
  long_unary_step t 2 = Next [push 0; push 1; nop; mkOp oST 0 10] 2 1.
Proof. cbv zeta. split; [apply wf_all; reflexivity|]. split; [split; [windows|intros B; inversion B; subst; repeat match goal with H : pushes _ _ |- _ => const H end; cbn in *; try discriminate; intuition discriminate]|]. reflexivity. Qed.

(** popt_LongBinaryOptimize *)
Theorem C39_long_binary_pass_partial :
  pass_sound long_binary_step (fun v =>
    (forall a0 a1 b0 b1 o, within v [a0; a1; b0; b1; o] -> ~ long_binary_bad a0 a1 b0 b1 o) /\
    (forall a0 a1 b o, within v [a0; a1; b; o] -> ~ long_shift_bad a0 a1 b o)).
Proof. intros t i W [H1 H2]. exact (long_binary_table t i W H1 H2). Qed.
Print Assumptions C39_long_binary_pass_partial.

Example C39_long_binary_example :
  let t := [push 65535; push 0; push 2; push 0; lng 0x48; mkOp oST 0 10] in
  Forall wf_op t /\ (fun v =>
    (forall a0 a1 b0 b1 o, within v [a0; a1; b0; b1; o] -> ~ long_binary_bad a0 a1 b0 b1 o) /\
    (forall a0 a1 b o, within v [a0; a1; b; o] -> ~ long_shift_bad a0 a1 b o)) (visible t) /\
  long_binary_step t 4 = Next [push 65534; push 1; nop; nop; nop; mkOp oST 0 10] 5 1.
Proof. cbv zeta. split; [apply wf_all; reflexivity|]. split; [split; windows|]. reflexivity. Qed.

Theorem C39_long_refuted :
  Forall (miscompiled long_unary_step) (map snd long_unary_tables) /\
  Forall (miscompiled long_binary_step) (map snd long_binary_tables) /\
  Forall (breaks long_unary_step) (map snd long_unary_breaks) /\
  Forall (breaks long_binary_step) (map snd long_binary_breaks).
Proof. exact (conj long_unary_mis (conj long_binary_mis (conj long_unary_brk long_binary_brk))). Qed.
Print Assumptions C39_long_refuted.

(** The optimizer does not terminate for a program containing 7 div 3 for unsigned
    operands, whatever the number of iterations granted to its loops. *)
Theorem C40_terminates_refuted :
  forall k m n, optimize k m n [mkOp oLABEL 0 1; push 7; push 3; o1 oUDIV; mkOp oST 0 10; o1 oEND] = ODiverges.
Proof. exact udiv_diverges. Qed.
Print Assumptions C40_terminates_refuted.
