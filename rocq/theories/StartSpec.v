(** Specification of the start of the p-machine.  Independent of the functions of
    StartModel.v. *)

From Coq Require Import ZArith Bool List.
From Verif Require Import State VmSpec StartModel.
Import ListNotations.
Open Scope Z_scope.

(** The next even number *)
Definition up (n : Z) : Z := n + n mod 2.
(** The next multiple of 16 *)
Definition up16 (n : Z) : Z := n + (- n) mod 16.

(** Where the regions start: strings at 0, read-only data, stack, heap *)
Definition ro_at (a : attr) : Z := up (a_str a).
Definition stack_at (a : attr) : Z := ro_at a + up (a_ro a).
Definition heap_at (a : attr) : Z := stack_at a + up (a_stk a).
Definition end_at (a : attr) : Z := heap_at a + up (a_hp a).

(** The sizes for which the machine can be started: the regions together have fewer
    than 64K bytes, the frame header fits into the stack; the heap is either not used
    or starts at most 8 bytes below a multiple of 16 (see C24). *)
Record startable (a : attr) : Prop :=
  { sa_pos : 0 <= a_str a /\ 0 <= a_ro a /\ 12 <= a_stk a /\ 0 <= a_hp a;
    sa_sum : end_at a <= 65535;
    sa_entry : 0 <= a_entry a <= 65535;
    sa_data : forall l, a_rodata a = Some l -> Z.of_nat (length l) = a_ro a /\ Forall (fun b => 0 <= b <= 255) l;
    sa_heap : up (a_hp a) <= 32 \/ up16 (heap_at a) <= heap_at a + 8 /\ up16 (heap_at a) + up (a_hp a) <= 65535 }.

(** The machine has been started: registers, memory map and the frame header of the
    main program, whose level is 0 *)
Record at_start (a : attr) (s : st) : Prop :=
  { as_map : c_rop (cf s) = ro_at a /\ c_spb (cf s) = stack_at a + 10 /\ c_hpb (cf s) = heap_at a /\
      c_hpsz (cf s) = up (a_hp a) /\ c_ssz (cf s) = end_at a;
    as_regs : fp s = stack_at a /\ sp s = stack_at a + 10 /\ csp s = 0 /\ lsp s = 0 /\ pc s = a_entry a;
    as_links : rd s (stack_at a / 2) = Some 0 /\ rd s (stack_at a / 2 + 1) = Some 65535 /\ rd s (stack_at a / 2 + 2) = Some 0 /\
      rd s (stack_at a / 2 + 3) = Some 0 /\ rd s (stack_at a / 2 + 4) = Some 0 }.
