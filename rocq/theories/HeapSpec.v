(** What is expected of the heap.  The specification knows about the region of
    the heap and about blocks, but nothing about chunks or free lists. *)

From Coq Require Import ZArith Bool List.
From Verif Require Import Words State HeapModel.
Import ListNotations.
Open Scope Z_scope.

(** The bytes configured for the heap *)
Definition in_heap (c : cfg) (b : Z) : Prop := c_hpb c <= b < c_hpb c + c_hpsz c.

(** A block: its address and the size requested *)
Definition in_block (x : Z * Z) (b : Z) : Prop := fst x <= b < fst x + snd x.

Definition in_live (live : list (Z * Z)) (b : Z) : Prop := exists x, In x live /\ in_block x b.

(** No byte belongs to two of the blocks *)
Fixpoint disjoint_blocks (live : list (Z * Z)) : Prop :=
  match live with
  | [] => True
  | x :: r => (forall b, in_block x b -> ~ in_live r b) /\ disjoint_blocks r
  end.

Definition blocks_ok (c : cfg) (live : list (Z * Z)) : Prop :=
  disjoint_blocks live /\ forall b, in_live live b -> in_heap c b.

(** What a program may do between two calls: everything except for modifying
    bytes of the heap that do not belong to one of its blocks *)
Definition user_step (s : st) (live : list (Z * Z)) (s' : st) : Prop :=
  cf s' = cf s /\ fch s' = fch s /\
  forall b, in_heap (cf s) b -> ~ in_live live b -> byte_of (mem s') b = byte_of (mem s) b.

(** What happens to the heap; [live] are the blocks allocated and not yet
    disposed, the most recent first.  [lifo] restricts this to programs that
    dispose of the most recent block only and do not request more than 65520
    bytes.  The stack is below of the heap.  The last three rules are about the
    buffers of temporary strings. *)
Inductive event := EUser | ENew (a n : Z) | ENewFailed (n : Z) | EDispose (a n : Z).

Inductive hstep (lifo : bool) (s : st) : list (Z * Z) -> event -> st -> list (Z * Z) -> Prop :=
| h_user live s' : user_step s live s' -> hstep lifo s live EUser s' live
| h_new live n s' a :
    0 <= sp s < c_hpb (cf s) -> tos s 0 = Some n -> (lifo = true -> n <= 65520) ->
    os_new s = Ok s' -> tos s' 0 = Some a ->
    hstep lifo s live (ENew a n) s' ((a, n) :: live)
| h_new_failed live n e s' :
    0 <= sp s < c_hpb (cf s) -> tos s 0 = Some n -> (lifo = true -> n <= 65520) ->
    os_new s = Err e s' ->
    hstep lifo s live (ENewFailed n) s' live
| h_dispose l1 a n l2 s' :
    (lifo = true -> l1 = []) -> tos s 0 = Some a -> os_dispose s = Ok s' ->
    hstep lifo s (l1 ++ (a, n) :: l2) (EDispose a n) s' (l1 ++ l2)
(* buffers of temporary strings: libexec_AllocTmpString, libexec_FreeTmpString *)
| h_tmp live n s' a al :
    alloc_tmp s n = HV (s', a, al) -> a <> 0 -> hstep lifo s live (ENew a n) s' ((a, n) :: live)
| h_tmp_failed live n s' al :
    alloc_tmp s n = HV (s', 0, al) -> hstep lifo s live (ENewFailed n) s' live
| h_tmp_free l1 a n l2 al s' :
    (lifo = true -> l1 = []) -> Z.land al HEAP_STRING <> 0 -> free_tmp s a al = HV (s', eNOERROR) ->
    hstep lifo s (l1 ++ (a, n) :: l2) (EDispose a n) s' (l1 ++ l2).

(** Runs of a program, beginning with the heap in state [s0]; the events in
    reverse order *)
Inductive hist (lifo : bool) (s0 : st) : list event -> st -> list (Z * Z) -> Prop :=
| h_start : hist lifo s0 [] s0 []
| h_step es s live e s' live' :
    hist lifo s0 es s live -> hstep lifo s live e s' live' -> hist lifo s0 (e :: es) s' live'.

(** Blocks disposed of and not reused by a later New: the disposals after the
    last successful New *)
Fixpoint disposed (es : list event) : list Z :=
  match es with
  | EDispose a _ :: r => a :: disposed r
  | ENew _ _ :: _ => []
  | _ :: r => disposed r
  | [] => []
  end.

(** A request of [n] bytes can be satisfied *)
Definition satisfiable (s : st) (n : Z) : Prop := exists s' a, alloc s n = HV (s', a) /\ a <> 0.

(** The memory map of a machine: the heap is inside of dstack (libexec_run.c:
    1399-1436, 1519-1541; the sizes are of type uint16_t) *)
Definition cfg_ok (c : cfg) : Prop :=
  0 <= c_hpb c /\ 0 <= c_hpsz c /\ c_hpb c + c_hpsz c <= c_ssz c <= 65535.

(** The configurations for which the heap works: base aligned to 16 bytes, size
    within the 15 bits of a chunk length *)
Definition heap_cfg (c : cfg) : Prop :=
  cfg_ok c /\ c_hpb c mod 16 = 0 /\ 32 < c_hpsz c <= 32783.
