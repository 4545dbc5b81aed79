(** Specification of the debugger.  Independent of the functions of DebugModel.v; [listed] and
    [printed] are what the user sees. *)

From Coq Require Import ZArith Bool List.
From Verif Require Import DebugModel.
Import ListNotations.
Open Scope Z_scope.

(** At most eight different breakpoints; the indices lie within the arrays. *)
Definition sound {E} (d : dbg E) : Prop :=
  NoDup (listed E d) /\ (length (listed E d) <= 8)%nat /\ (traceIndex E d < 16)%nat /\ (nTracePoints E d <= 16)%nat.

(** The last [n] elements *)
Definition last_n {X} (n : nat) (l : list X) : list X := skipn (length l - n) l.

Section Execution.
  Variables S E : Type.
  Variable pc : S -> Z.
  Variable exec : S -> bool * S.
  Variable maxpc : Z.

  (** The state after [k] instructions *)
  Fixpoint steps (k : nat) (s : S) : S := match k with O => s | Datatypes.S k => steps k (snd (exec s)) end.

  (** A reason to stop behind the k-th instruction: an error, the end of the code, the place
      [until] (if there is one), a breakpoint *)
  Definition reason (bps : list Z) (until : option Z) (s : S) (k : nat) : Prop :=
    fst (exec (steps (k - 1) s)) = false \/ maxpc <= pc (steps k s) \/ until = Some (pc (steps k s)) \/ In (pc (steps k s)) bps.

  (** Execution from [s] stops at [s'], behind the [k]-th instruction, at the first reason. *)
  Definition stops_at (bps : list Z) (until : option Z) (s : S) (k : nat) : Prop :=
    (1 <= k)%nat /\ reason bps until s k /\ forall j, (1 <= j < k)%nat -> ~ reason bps until s j.
End Execution.
