(** Properties C17-C21: sets. *)

From Coq Require Import ZArith Bool List Lia.
From Verif Require Import Words State Opcodes Machine VmSpec SetSpec SetProofs Samples.
Import ListNotations.
Open Scope Z_scope.

(** C17 *)
Theorem C17_algebra : forall c op s A B x,
  In (c, op) set_algebra -> 0 <= sp s < 65536 -> set_at s 4 A -> set_at s 0 B ->
  exists s' ws, exec_insn s (mkOp oSETOP c x) = Ok s' /\ stack_effect s s' 8 ws /\
    represents ws (fun i => op (member_of A i) (member_of B i)) /\ pc s' = (pc s + 2) mod 65536.
Proof. exact set_algebra_correct. Qed.
Print Assumptions C17_algebra.

Theorem C17_relations : forall c R s A B x,
  In (c, R) set_relations -> 0 <= sp s < 65536 -> set_at s 4 A -> set_at s 0 B ->
  exists s' r, exec_insn s (mkOp oSETOP c x) = Ok s' /\ stack_effect s s' 8 [r] /\
    truth r (R (member_of A) (member_of B)) /\ pc s' = (pc s + 2) mod 65536.
Proof. exact set_relations_correct. Qed.
Print Assumptions C17_relations.

Theorem C17_empty : forall s x, room s 4 ->
  exists s' ws, exec_insn s (mkOp oSETOP nEMPTY x) = Ok s' /\ stack_effect s s' 0 ws /\
    represents ws (fun _ => False) /\ pc s' = (pc s + 2) mod 65536.
Proof. exact empty_correct. Qed.
Print Assumptions C17_empty.

(** {0,1,16} and {1,2,63} *)
Definition two_sets : st := demo_with [3; 1; 0; 0; 6; 0; 0; 0x8000].

Example C17_example :
  set_at two_sets 4 [3; 1; 0; 0] /\ set_at two_sets 0 [6; 0; 0; 0x8000] /\
  match exec_insn two_sets (mkOp oSETOP nDIFFERENCE 0) with
  | Ok s' => set_at s' 0 [1; 1; 0; 0] | _ => False end /\
  match exec_insn two_sets (mkOp oSETOP nCONTAINS 0) with
  | Ok s' => tos s' 0 = Some 0 | _ => False end.
Proof.
  repeat split; try (intros [|[|[|[|j]]]] Hj; [reflexivity..|lia]).
Qed.

(** C18.  Full statement: without [z <> 64]. *)
Theorem C18_partial : forall s A m base z x,
  0 <= sp s < 65536 -> tos s 0 = Some base -> set_at s 1 A -> tos s 5 = Some m -> member_number m base z -> z <> 64 ->
  (0 <= z < 64 ->
     exists s' r, exec_insn s (mkOp oSETOP nMEMBER x) = Ok s' /\ stack_effect s s' 6 [r] /\
       truth r (member_of A z) /\ pc s' = (pc s + 2) mod 65536) /\
  (~ 0 <= z < 64 -> exists s', exec_insn s (mkOp oSETOP nMEMBER x) = Err eVALUERANGE s').
Proof. exact member_correct. Qed.
Print Assumptions C18_partial.

(** Member 64 is accepted in every state and the answer is the parity of the
    base value. *)
Theorem C18_refuted : forall s A m base x,
  0 <= sp s < 65536 -> tos s 0 = Some base -> set_at s 1 A -> tos s 5 = Some m -> member_number m base 64 ->
  exists s' r, exec_insn s (mkOp oSETOP nMEMBER x) = Ok s' /\ stack_effect s s' 6 [r] /\ truth r (Z.Odd base).
Proof. exact member_64. Qed.
Print Assumptions C18_refuted.

Example C18_example :
  member_number 63 0 63 /\ member_number 65 1 64 /\
  match exec_insn (demo_with [63; 0; 0; 0; 0x8000; 0]) (mkOp oSETOP nMEMBER 0) with
  | Ok s' => tos s' 0 = Some 65535 | _ => False end /\
  match exec_insn (demo_with [65; 0; 0; 0; 0; 1]) (mkOp oSETOP nMEMBER 0) with
  | Ok s' => tos s' 0 = Some 65535 | _ => False end.
Proof.
  split; [exists 63, 0; unfold signed16; repeat split; try lia; exists 0; lia|].
  split; [exists 65, 1; unfold signed16; repeat split; try lia; exists 0; lia|].
  vm_compute. auto.
Qed.

(** C19.  Missing: elements out of range, see [C19_refuted]. *)
Theorem C19_include_partial : forall s A m z x,
  0 <= sp s < 65536 -> tos s 0 = Some m -> set_at s 1 A -> signed16 m z -> 0 <= z < 64 ->
  exists s' ws, exec_insn s (mkOp oSETOP nINCLUDE x) = Ok s' /\ stack_effect s s' 5 ws /\
    represents ws (fun i => member_of A i \/ i = z) /\ pc s' = (pc s + 2) mod 65536.
Proof. exact include_correct. Qed.
Print Assumptions C19_include_partial.

Theorem C19_exclude_partial : forall s A m z x,
  0 <= sp s < 65536 -> tos s 0 = Some m -> set_at s 1 A -> signed16 m z -> 0 <= z < 64 ->
  exists s' ws, exec_insn s (mkOp oSETOP nEXCLUDE x) = Ok s' /\ stack_effect s s' 5 ws /\
    represents ws (fun i => member_of A i /\ i <> z) /\ pc s' = (pc s + 2) mod 65536.
Proof. exact exclude_correct. Qed.
Print Assumptions C19_exclude_partial.

(** An element above the range sets a bit outside of the set (within the
    machine's memory) and nothing is reported. *)
Theorem C19_refuted : forall s m z x,
  room s 0 -> 16 <= sp s -> tos s 0 = Some m -> signed16 m z -> 64 <= z -> sp s + z / 8 < c_ssz (cf s) ->
  exists s', exec_insn s (mkOp oSETOP nINCLUDE x) = Ok s' /\
    exists w, rd s' (sp s / 2 - 4 + z / 16) = Some w /\ Z.testbit w (z mod 16) = true.
Proof. exact include_unreported. Qed.
Print Assumptions C19_refuted.

Example C19_example :
  signed16 17 17 /\ signed16 200 200 /\
  match exec_insn (demo_with [1; 0; 0; 0; 17]) (mkOp oSETOP nINCLUDE 0) with
  | Ok s' => rd s' 26 = Some 1 /\ rd s' 27 = Some 2 /\ sp s' = 58 | _ => False end /\
  (* element 200: the heap is modified *)
  match exec_insn (demo_with [1; 0; 0; 0; 200]) (mkOp oSETOP nINCLUDE 0) with
  | Ok s' => rd (demo_with [1; 0; 0; 0; 200]) 38 = Some 0 /\ rd s' 38 = Some 0x100 | _ => False end.
Proof.
  split; [split; [lia|exists 0; lia]|]. split; [split; [lia|exists 0; lia]|]. vm_compute. auto.
Qed.

(** C20 *)
Theorem C20_singleton : forall s m base z x,
  room s 2 -> 4 <= sp s -> tos s 0 = Some base -> tos s 1 = Some m -> member_number m base z ->
  (0 <= z < 64 ->
     exists s' ws, exec_insn s (mkOp oSETOP nSINGLETON x) = Ok s' /\ stack_effect s s' 2 ws /\
       represents ws (fun i => i = z) /\ pc s' = (pc s + 2) mod 65536) /\
  (~ 0 <= z < 64 -> exists s', exec_insn s (mkOp oSETOP nSINGLETON x) = Err eVALUERANGE s').
Proof. exact singleton_correct. Qed.
Print Assumptions C20_singleton.

Theorem C20_card : forall s A l x,
  0 <= sp s < 65536 -> set_at s 0 A -> NoDup l -> (forall i, In i l <-> member_of A i) ->
  exists s', exec_insn s (mkOp oSETOP nCARD x) = Ok s' /\ stack_effect s s' 4 [Z.of_nat (length l)] /\
    pc s' = (pc s + 2) mod 65536.
Proof. exact card_correct. Qed.
Print Assumptions C20_card.

Example C20_example :
  match exec_insn (demo_with [40; 30]) (mkOp oSETOP nSINGLETON 0) with
  | Ok s' => rd s' 26 = Some 0x400 /\ sp s' = 58 | _ => False end /\
  match exec_insn (demo_with [0xff01; 1; 0; 0x8000]) (mkOp oSETOP nCARD 0) with
  | Ok s' => tos s' 0 = Some 11 /\ sp s' = 52 | _ => False end.
Proof. vm_compute. auto. Qed.

(** C21.  Full statement: without [subrange_ok]. *)
Theorem C21_partial : forall s m1 m2 base a b x,
  room s 1 -> 6 <= sp s -> tos s 0 = Some base -> tos s 1 = Some m2 -> tos s 2 = Some m1 ->
  member_number m1 base a -> member_number m2 base b ->
  (0 <= a -> a <= b -> b < 64 -> subrange_ok a b ->
     exists s' ws, exec_insn s (mkOp oSETOP nSUBRANGE x) = Ok s' /\ stack_effect s s' 3 ws /\
       represents ws (fun i => a <= i <= b) /\ pc s' = (pc s + 2) mod 65536) /\
  (~ (0 <= a /\ a <= b /\ b < 64) -> exists s', exec_insn s (mkOp oSETOP nSUBRANGE x) = Err eVALUERANGE s').
Proof. exact subrange_correct. Qed.
Print Assumptions C21_partial.

(** For these ends the loop runs out of the machine's memory, in every state. *)
Theorem C21_refuted : forall s m1 m2 base a b x,
  room s 1 -> 6 <= sp s -> tos s 0 = Some base -> tos s 1 = Some m2 -> tos s 2 = Some m1 ->
  member_number m1 base a -> member_number m2 base b ->
  0 < a < 16 -> 16 <= b < 31 -> 31 < a + b ->
  exec_insn s (mkOp oSETOP nSUBRANGE x) = UB.
Proof. exact subrange_ub. Qed.
Print Assumptions C21_refuted.

(** For these ends the set contains 48. *)
Theorem C21_wrong_refuted : forall s m1 m2 base a b x,
  room s 1 -> 6 <= sp s -> tos s 0 = Some base -> tos s 1 = Some m2 -> tos s 2 = Some m1 ->
  member_number m1 base a -> member_number m2 base b -> 16 <= a < 32 -> 32 <= b < 48 ->
  exists s' ws, exec_insn s (mkOp oSETOP nSUBRANGE x) = Ok s' /\ stack_effect s s' 3 ws /\ member_of ws 48.
Proof. exact subrange_wrong. Qed.
Print Assumptions C21_wrong_refuted.

Example C21_example :
  subrange_ok 3 40 /\
  match exec_insn (demo_with [3; 40; 0]) (mkOp oSETOP nSUBRANGE 0) with
  | Ok s' => rd s' 26 = Some 0xfff8 /\ rd s' 27 = Some 0xffff /\ rd s' 28 = Some 0x1ff /\ rd s' 29 = Some 0 | _ => False end /\
  exec_insn (demo_with [15; 20; 0]) (mkOp oSETOP nSUBRANGE 0) = UB /\
  match exec_insn (demo_with [20; 35; 0]) (mkOp oSETOP nSUBRANGE 0) with
  | Ok s' => rd s' 28 = Some 0xffff /\ rd s' 29 = Some 15 | _ => False end.
Proof. split; [unfold subrange_ok; right; vm_compute; split; [reflexivity|left; discriminate]|]. vm_compute. auto 10. Qed.
