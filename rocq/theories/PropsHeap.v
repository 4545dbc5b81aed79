(** Properties C22-C25: the heap *)

From Coq Require Import ZArith Bool List Lia.
From Verif Require Import Words State HeapModel HeapSpec HeapMain HeapRefuted.
Import ListNotations.
Open Scope Z_scope.

(** C22 Live blocks are disjoint and inside of the heap: for programs that
    dispose of the most recent block only and request at most 65520 bytes, with
    the base of the heap a multiple of 16 and at most 32783 bytes of heap.
    Missing: other orders of disposal, for which it does not hold. *)
Theorem C22_lifo_partial : forall si s0 es s live,
  heap_cfg (cf si) -> init_heap si = HV s0 -> hist true s0 es s live -> blocks_ok (cf si) live.
Proof. exact lifo_blocks. Qed.
Print Assumptions C22_lifo_partial.

(** Such programs never run into undefined behaviour of New and Dispose, and
    these leave the contents of the other blocks alone. *)
Theorem C22_new_partial : forall si s0 es s live n,
  heap_cfg (cf si) -> init_heap si = HV s0 -> hist true s0 es s live ->
  0 <= sp s < c_hpb (cf s) -> tos s 0 = Some n -> n <= 65520 ->
  exists s', (os_new s = Ok s' \/ os_new s = Err eNEWFAILED s') /\
             forall b, in_live live b -> byte_of (mem s') b = byte_of (mem s) b.
Proof. exact lifo_new. Qed.
Print Assumptions C22_new_partial.

Theorem C22_dispose_partial : forall si s0 es s a n live,
  heap_cfg (cf si) -> init_heap si = HV s0 -> hist true s0 es s ((a, n) :: live) -> tos s 0 = Some a ->
  exists s', os_dispose s = Ok s' /\ forall b, in_live live b -> byte_of (mem s') b = byte_of (mem s) b.
Proof. exact lifo_dispose. Qed.
Print Assumptions C22_dispose_partial.

(** A run of this kind *)
Example C22_lifo_case :
  heap_cfg (cf state0) /\ init_heap state0 = HV start0 /\
  hist true start0 (fst (fst (run0 true [N 10; N 33; D 0; N 60; S 100 7; N 1; N 500])))
    (snd (fst (run0 true [N 10; N 33; D 0; N 60; S 100 7; N 1; N 500])))
    (snd (run0 true [N 10; N 33; D 0; N 60; S 100 7; N 1; N 500])) /\
  snd (run0 true [N 10; N 33; D 0; N 60; S 100 7; N 1; N 500]) = [(168, 1); (96, 60); (72, 10)].
Proof. split; [exact cfg0_ok|]. split; [exact start0_eq|]. split; [apply run0_hist | vm_compute; reflexivity]. Qed.

(** After new(a,10), new(b,10), dispose(a), new(c,40), dispose(b), new(d,40) the
    blocks c and d are the same *)
Theorem C22_refuted : exists si s0 es s live,
  heap_cfg (cf si) /\ init_heap si = HV s0 /\ hist false s0 es s live /\ ~ blocks_ok (cf si) live.
Proof. exact overlap_refuted. Qed.
Print Assumptions C22_refuted.

(** A request of 65530 bytes is granted by a heap of 256 bytes *)
Theorem C22_large_refuted : exists si s0 es s live,
  heap_cfg (cf si) /\ init_heap si = HV s0 /\ hist false s0 es s live /\ live = [(72, 65530)] /\ ~ blocks_ok (cf si) live.
Proof. exact large_refuted. Qed.
Print Assumptions C22_large_refuted.

(** A correct program can run into undefined behaviour of New *)
Theorem C22_undefined_refuted : exists si s0 es s live n,
  heap_cfg (cf si) /\ init_heap si = HV s0 /\ hist false s0 es s live /\
  0 <= sp s < c_hpb (cf s) /\ tos s 0 = Some n /\ os_new s = UB.
Proof. exact undefined_refuted. Qed.
Print Assumptions C22_undefined_refuted.

(** C23 After all blocks were disposed, the same requests can be satisfied as in
    the beginning: for the programs of C22_lifo_partial *)
Theorem C23_lifo_partial : forall si s0 es s n,
  heap_cfg (cf si) -> init_heap si = HV s0 -> hist true s0 es s [] ->
  0 < n <= 65520 -> (satisfiable s n <-> satisfiable s0 n).
Proof. exact lifo_available. Qed.
Print Assumptions C23_lifo_partial.

Example C23_lifo_case :
  hist true start0 (fst (fst (run0 true [N 10; N 33; D 0; N 60; D 0; D 0])))
    (snd (fst (run0 true [N 10; N 33; D 0; N 60; D 0; D 0]))) (snd (run0 true [N 10; N 33; D 0; N 60; D 0; D 0])) /\
  snd (run0 true [N 10; N 33; D 0; N 60; D 0; D 0]) = [] /\
  length (fst (fst (run0 true [N 10; N 33; D 0; N 60; D 0; D 0]))) = 12%nat.
Proof. split; [apply run0_hist|]. split; vm_compute; reflexivity. Qed.

(** new(a,10), new(b,10), dispose(a), dispose(b) loses memory *)
Theorem C23_refuted : exists si s0 es s,
  heap_cfg (cf si) /\ init_heap si = HV s0 /\ hist false s0 es s [] /\ satisfiable s0 200 /\ ~ satisfiable s 200.
Proof. exact available_refuted. Qed.
Print Assumptions C23_refuted.

(** C24 Initialisation writes inside of the heap only, if the base is at most 8
    bytes below of a multiple of 16 and the rounded heap ends below of 65536 *)
Theorem C24_within_partial : forall s,
  cfg_ok (cf s) -> 32 < c_hpsz (cf s) ->
  alignup (c_hpb (cf s)) <= c_hpb (cf s) + 8 -> alignup (c_hpb (cf s)) + c_hpsz (cf s) < 65536 ->
  exists s', init_heap s = HV s' /\ cf s' = cf s /\
             forall b, ~ in_heap (cf s) b -> byte_of (mem s') b = byte_of (mem s) b.
Proof. exact init_within. Qed.
Print Assumptions C24_within_partial.

Example C24_within_case : cfg_ok (mkCfg 1000 32 74 16 926) /\ alignup 74 <= 74 + 8 /\ alignup 74 + 926 < 65536.
Proof. unfold cfg_ok. cbn. lia. Qed.

(** The whole region, rounded down to a multiple of 16, less the 16 bytes of the
    terminus and 8 bytes for the header, is available for one block *)
Theorem C24_block_partial : forall si s n,
  heap_cfg (cf si) -> init_heap si = HV s -> 0 < n <= 65520 ->
  (satisfiable s n <-> alignup n + 8 + 16 <= aligndown (c_hpsz (cf si))).
Proof. exact init_spans. Qed.
Print Assumptions C24_block_partial.

Example C24_block_case : heap_cfg (mkCfg 40000 32 64 16 32783) /\ alignup 32736 + 8 + 16 <= aligndown 32783.
Proof. unfold heap_cfg, cfg_ok. cbn. lia. Qed.

(** Initialisation writes beyond of the end of the data stack *)
Theorem C24_within_refuted : exists si, cfg_ok (cf si) /\ 32 < c_hpsz (cf si) /\ init_heap si = HU.
Proof. exact init_overflow_refuted. Qed.
Print Assumptions C24_within_refuted.

(** A heap of 32800 bytes satisfies no request at all *)
Theorem C24_block_refuted : exists si s, cfg_ok (cf si) /\ c_hpsz (cf si) = 32800 /\ c_hpb (cf si) mod 16 = 0 /\
  init_heap si = HV s /\ forall n, 0 < n <= 65520 -> ~ satisfiable s n.
Proof. exact init_large_refuted. Qed.
Print Assumptions C24_block_refuted.

(** C25 An address outside of the heap is rejected, in every state *)
Theorem C25_outside : forall s a,
  cfg_ok (cf s) -> tos s 0 = Some a -> ~ in_heap (cf s) a ->
  os_dispose s = Err eHUH (with_sp s (u16 (sp s - 2))).
Proof. exact dispose_outside. Qed.
Print Assumptions C25_outside.

Example C25_outside_case :
  cfg_ok (cf (prep start0 20)) /\ tos (prep start0 20) 0 = Some 20 /\ ~ in_heap (cf (prep start0 20)) 20.
Proof. unfold cfg_ok, in_heap. vm_compute. intuition discriminate. Qed.

(** A block disposed of is rejected as long as there was no successful New since:
    for the programs of C22_lifo_partial *)
Theorem C25_twice_partial : forall si s0 es s live a,
  heap_cfg (cf si) -> init_heap si = HV s0 -> hist true s0 es s live ->
  In a (disposed es) -> tos s 0 = Some a -> os_dispose s = Err eDOUBLEFREE (with_sp s (u16 (sp s - 2))).
Proof. exact dispose_twice. Qed.
Print Assumptions C25_twice_partial.

Example C25_twice_case :
  disposed (fst (fst (run0 true [N 10; N 33; N 5; D 0; D 0; N 500]))) = [96; 152].
Proof. vm_compute. reflexivity. Qed.

(** A block disposed of before can be disposed of again if its header became
    part of a new block *)
Theorem C25_twice_refuted : exists si s0 es s live a n s',
  heap_cfg (cf si) /\ init_heap si = HV s0 /\ hist true s0 es s live /\ In (EDispose a n) es /\
  (forall m, ~ In (a, m) live) /\ tos s 0 = Some a /\ os_dispose s = Ok s'.
Proof. exact twice_refuted. Qed.
Print Assumptions C25_twice_refuted.
