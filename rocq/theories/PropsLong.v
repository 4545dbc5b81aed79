(** Properties C14-C16: long integers. *)

From Coq Require Import ZArith Bool List Lia.
From Verif Require Import Words State Opcodes SetModel LongModel Machine VmSpec LongSpec LongProofs Samples.
Import ListNotations.
Open Scope Z_scope.

(** C14.  Full statement: for every operand (pair).  Signed operations whose
    result does not fit and division by zero are excluded: see
    [C14_overflow_refuted]. *)
Theorem C14_unary_partial : forall c D R s a x,
  In (c, D, R) long_unary_ops -> long_at s 0 a -> D a ->
  exists s' r, exec_insn s (mkOp oLONGOP8 c x) = Ok s' /\ R a r /\
    (exists lo hi, stack_effect s s' 2 [lo; hi] /\ r = lo + 65536 * hi) /\ pc s' = (pc s + 2) mod 65536.
Proof. exact long_unary_correct. Qed.
Print Assumptions C14_unary_partial.

Theorem C14_binary_partial : forall c D R s a b x,
  In (c, D, R) long_binary_ops -> 0 <= sp s < 65536 -> long_at s 0 b -> long_at s 2 a -> D a b ->
  exists s' r, exec_insn s (mkOp oLONGOP8 c x) = Ok s' /\ R a b r /\
    (exists lo hi, stack_effect s s' 4 [lo; hi] /\ r = lo + 65536 * hi) /\ pc s' = (pc s + 2) mod 65536.
Proof. exact long_binary_correct. Qed.
Print Assumptions C14_binary_partial.

Theorem C14_shift : forall c R s a n x,
  In (c, R) long_shift_ops -> 0 <= sp s < 65536 -> tos s 0 = Some n -> n < 32 -> long_at s 1 a ->
  exists s' r, exec_insn s (mkOp oLONGOP8 c x) = Ok s' /\ R a n r /\
    (exists lo hi, stack_effect s s' 3 [lo; hi] /\ r = lo + 65536 * hi) /\ pc s' = (pc s + 2) mod 65536.
Proof. exact long_shift_correct. Qed.
Print Assumptions C14_shift.

(** Sign extension, zero extension, truncation *)
Theorem C14_extend : forall c s w x,
  In c [nCNVD; nUCNVD] -> room s 1 -> 2 <= sp s -> tos s 0 = Some w ->
  exists s' r, exec_insn s (mkOp oLONGOP8 c x) = Ok s' /\
    (if c =? nCNVD then sgn1 (fun z r => word32 r z) w r else r = w) /\
    (exists lo hi, stack_effect s s' 1 [lo; hi] /\ r = lo + 65536 * hi) /\ pc s' = (pc s + 2) mod 65536.
Proof. exact convert_up. Qed.
Print Assumptions C14_extend.

Theorem C14_truncate : forall s a x, room s 0 -> 4 <= sp s < 65536 -> long_at s 0 a ->
  exists s' r, exec_insn s (mkOp oLONGOP8 nDCNV x) = Ok s' /\ word16 r a /\
    stack_effect s s' 2 [r] /\ pc s' = (pc s + 2) mod 65536.
Proof. exact convert_down. Qed.
Print Assumptions C14_truncate.

(** Every addition whose sum does not fit into 32 bits is undefined behaviour. *)
Theorem C14_overflow_refuted : forall s a b z x,
  0 <= sp s < 65536 -> long_at s 0 b -> long_at s 2 a ->
  lsgn2 (fun x y r => r = x + y) a b z -> ~ fits32 z ->
  exec_insn s (mkOp oLONGOP8 nDADD x) = UB.
Proof. exact long_overflow. Qed.
Print Assumptions C14_overflow_refuted.

Example C14_example :
  long_at (demo_with [0xffff; 0xffff; 2; 0]) 0 2 /\ long_at (demo_with [0xffff; 0xffff; 2; 0]) 2 0xffffffff /\
  match exec_insn (demo_with [0xffff; 0xffff; 2; 0]) (mkOp oLONGOP8 nDSUB 0) with
  | Ok s' => long_at s' 0 0xfffffffd /\ sp s' = 54
  | _ => False end /\
  exec_insn (demo_with [0xffff; 0x7fff; 2; 0]) (mkOp oLONGOP8 nDADD 0) = UB.
Proof.
  split; [exists 2, 0; vm_compute; auto|]. split; [exists 0xffff, 0xffff; vm_compute; auto|].
  split; [|reflexivity]. split; [exists 0xfffd, 0xffff; vm_compute; auto|reflexivity].
Qed.

(** C15.  Comparison with zero and (in)equality are right ... *)
Theorem C15_zero : forall c R s a x,
  In (c, R) long_test_ops -> room s 0 -> sp s < 65536 -> long_at s 0 a ->
  exists s' r, exec_insn s (mkOp oLONGOP8 c x) = Ok s' /\ R a r /\ stack_effect s s' 2 [r] /\
    pc s' = (pc s + 2) mod 65536.
Proof. exact long_test_correct. Qed.
Print Assumptions C15_zero.

(** Missing: the ordering relations, see [C15_refuted]. *)
Theorem C15_equal_partial : forall c R s a b x,
  In (c, R) long_relation_ops -> In c symmetric_relations ->
  room s 0 -> 8 <= sp s < 65536 -> long_at s 0 b -> long_at s 2 a ->
  exists s' r, exec_insn s (mkOp oLONGOP8 c x) = Ok s' /\ R a b r /\ stack_effect s s' 4 [r] /\
    pc s' = (pc s + 2) mod 65536.
Proof. exact long_equ_correct. Qed.
Print Assumptions C15_equal_partial.

(** ... the ordering relations are not. *)
Theorem C15_refuted : exists c R s a b s' r,
  In (c, R) long_relation_ops /\ room s 0 /\ 8 <= sp s < 65536 /\ long_at s 0 b /\ long_at s 2 a /\
  exec_insn s (mkOp oLONGOP8 c 0) = Ok s' /\ tos s' 0 = Some r /\ ~ R a b r.
Proof. exact long_order_wrong. Qed.
Print Assumptions C15_refuted.

(** They compare the operands in the opposite order ... *)
Theorem C15_reversed : forall c R s a b x,
  In (c, R) long_relation_ops -> ~ In c symmetric_relations -> c <> nDULT ->
  room s 0 -> 8 <= sp s < 65536 -> long_at s 0 b -> long_at s 2 a ->
  exists s' r, exec_insn s (mkOp oLONGOP8 c x) = Ok s' /\ R b a r /\ stack_effect s s' 4 [r] /\
    pc s' = (pc s + 2) mod 65536.
Proof. exact long_order_actual. Qed.
Print Assumptions C15_reversed.

(** ... and DULT tests whether the first operand differs from zero. *)
Theorem C15_dult : forall s a b x,
  room s 0 -> 8 <= sp s < 65536 -> long_at s 0 b -> long_at s 2 a ->
  exists s' r, exec_insn s (mkOp oLONGOP8 nDULT x) = Ok s' /\ truth r (0 < a) /\ stack_effect s s' 4 [r] /\
    pc s' = (pc s + 2) mod 65536.
Proof. exact long_ult_actual. Qed.
Print Assumptions C15_dult.

Example C15_example : room (long_state 5 5) 0 /\ long_at (long_state 5 5) 0 5 /\ long_at (long_state 5 5) 2 5 /\
  match exec_insn (long_state 5 5) (mkOp oLONGOP8 nDEQU 0) with Ok s' => tos s' 0 = Some 65535 | _ => False end.
Proof.
  split; [unfold room; cbn; lia|]. split; [exists 5, 0; vm_compute; auto|].
  split; [exists 5, 0; vm_compute; auto|reflexivity].
Qed.

(** C16.  Missing: the exchange, see [C16_refuted]. *)
Theorem C16_dup_partial : forall s a x, room s 2 -> long_at s 0 a ->
  exists s' lo hi, exec_insn s (mkOp oLONGOP8 nDDUP x) = Ok s' /\ a = lo + 65536 * hi /\
    stack_effect s s' 0 [lo; hi] /\ pc s' = (pc s + 2) mod 65536.
Proof. exact long_dup. Qed.
Print Assumptions C16_dup_partial.

Theorem C16_refuted : exists s a b s',
  8 <= sp s < 65536 /\ long_at s 0 b /\ long_at s 2 a /\
  exec_insn s (mkOp oLONGOP8 nDXCHG 0) = Ok s' /\ ~ (long_at s' 0 a /\ long_at s' 2 b).
Proof. exact long_xchg_wrong. Qed.
Print Assumptions C16_refuted.

Example C16_example : room (long_state 5 0x10007) 2 /\
  match exec_insn (long_state 5 0x10007) (mkOp oLONGOP8 nDDUP 0) with
  | Ok s' => long_at s' 0 0x10007 /\ long_at s' 2 0x10007 /\ long_at s' 4 5 | _ => False end.
Proof.
  split; [unfold room; cbn; lia|].
  split; [exists 7, 1; vm_compute; auto|]. split; [exists 7, 1; vm_compute; auto|exists 5, 0; vm_compute; auto].
Qed.
