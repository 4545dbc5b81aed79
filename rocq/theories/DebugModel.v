(** The debugger: breakpoints, execution and trace, insn16/libexec/libexec_debug.c:140-215,
    484-735.  Definitions only.

    The machine is a parameter: its states, the program counter, libexec_Execute (whether it
    returns eNOERROR, and the state), libexec_Reset, the instruction at the program counter, and what is
    recorded of a state (pc, sp, tos, wp: :648-663).
    Simplified: the arrays are functions; that the indices are within them is proved.  Not
    modelled: the output, except the entries of the trace and the breakpoints listed; watch
    points are constant; lastCmd. *)

From Coq Require Import ZArith Bool List.
From Verif Require Import Words.
Import ListNotations.
Open Scope Z_scope.

(** insn16/include/libexec.h:135-136 *)
Definition TRACE_ARRAY_SIZE : nat := 16.
Definition MAX_BREAK_POINTS : nat := 8.

Definition upd {X} (a : nat -> X) (i : nat) (v : X) : nat -> X := fun j => if (j =? i)%nat then v else a j.

Section Debugger.
  Variables S E : Type.
  Variable pc : S -> Z.
  Variable exec : S -> bool * S.
  Variable reset : S -> S.
  Variable is_call : S -> bool.
  Variable snap : S -> E.
  Variable maxpc : Z.

  (** The variables of struct libexec_s, libexec.h:333-348 *)
  Record dbg := mkDbg { breakPoint : nat -> Z; nBreakPoints : nat; untilPoint : Z; bExecStop : bool;
                        traceArray : nat -> E; traceIndex : nat; nTracePoints : nat }.

  Definition with_break (b : nat -> Z) (n : nat) (d : dbg) : dbg :=
    mkDbg b n (untilPoint d) (bExecStop d) (traceArray d) (traceIndex d) (nTracePoints d).
  Definition with_until (u : Z) (d : dbg) : dbg :=
    mkDbg (breakPoint d) (nBreakPoints d) u (bExecStop d) (traceArray d) (traceIndex d) (nTracePoints d).
  Definition with_stop (b : bool) (d : dbg) : dbg :=
    mkDbg (breakPoint d) (nBreakPoints d) (untilPoint d) b (traceArray d) (traceIndex d) (nTracePoints d).

  (** pdbg_PrintBreakPoints :573-583: the addresses *)
  Definition listed (d : dbg) : list Z := map (breakPoint d) (seq 0 (nBreakPoints d)).

  (** pdbg_AddBreakPoint :527-551 *)
  Definition add_break (a : Z) (d : dbg) : dbg :=
    if (nBreakPoints d <? MAX_BREAK_POINTS)%nat then
      if existsb (fun i => breakPoint d i =? a) (seq 0 (nBreakPoints d)) then d
      else with_break (upd (breakPoint d) (nBreakPoints d) a) (nBreakPoints d + 1) d
    else d.

  (** pdbg_DeleteBreakPoint :556-568; the loop, [m] times *)
  Fixpoint shift (m bpno : nat) (a : nat -> Z) : nat -> Z :=
    match m with O => a | Datatypes.S m' => shift m' (bpno + 1) (upd a (bpno - 1) (a bpno)) end.
  Definition delete_break (bpno : Z) (d : dbg) : dbg :=
    if (1 <=? bpno) && (bpno <=? Z.of_nat (nBreakPoints d)) then
      with_break (shift (nBreakPoints d - Z.to_nat bpno) (Z.to_nat bpno) (breakPoint d)) (nBreakPoints d - 1) d
    else d.

  (** eCMD_BS :186-202, eCMD_BC :204-216 *)
  Definition cmd_bs (value : Z) (d : dbg) : dbg :=
    if (MAX_BREAK_POINTS <=? nBreakPoints d)%nat then d else if maxpc <=? value then d else add_break value d.
  Definition cmd_bc (value : Z) (d : dbg) : dbg :=
    if (1 <=? value) && (value <=? Z.of_nat (nBreakPoints d)) then delete_break value d else d.

  (** pdbg_CheckBreakPoint :589-606 *)
  Definition check_break (s : S) (d : dbg) : dbg :=
    if negb (bExecStop d) && existsb (fun i => breakPoint d i =? pc s) (seq 0 (nBreakPoints d)) then with_stop true d else d.

  (** pdbg_DebugPCode :640-676: the entry of the trace *)
  Definition record (s : S) (d : dbg) : dbg :=
    mkDbg (breakPoint d) (nBreakPoints d) (untilPoint d) (bExecStop d) (upd (traceArray d) (traceIndex d) (snap s))
      (if (TRACE_ARRAY_SIZE <=? traceIndex d + 1)%nat then 0%nat else (traceIndex d + 1)%nat)
      (if (nTracePoints d <? TRACE_ARRAY_SIZE)%nat then (nTracePoints d + 1)%nat else nTracePoints d).
  (** :678-722 *)
  Definition check (ok : bool) (s : S) (d : dbg) : dbg :=
    let d := if ok then d else with_stop true d in
    if bExecStop d then d
    else if maxpc <=? pc s then with_stop true d
    else if (0 <? untilPoint d) && (untilPoint d =? pc s) then with_stop true d
    else if (0 <? nBreakPoints d)%nat then check_break s d else d.
  (** The loop; [None]: it has not ended after [n] instructions *)
  Fixpoint debug (n : nat) (d : dbg) (s : S) : option (dbg * S) :=
    match n with
    | O => None
    | Datatypes.S n' =>
      let d1 := record s d in
      let (ok, s1) := exec s in
      let d2 := check ok s1 d1 in
      if bExecStop d2 then Some (d2, s1) else debug n' d2 s1
    end.

  (** pdbg_InitDebugger :626-632 *)
  Definition init_debugger (d : dbg) : dbg :=
    mkDbg (breakPoint d) (nBreakPoints d) (untilPoint d) false (traceArray d) 0 0.
  (** eCMD_RUN :152-157, eCMD_STEP :159-163, eCMD_NEXT :165-179, eCMD_GO :181-185 *)
  Definition cmd_run (n : nat) (d : dbg) (s : S) : option (dbg * S) := debug n (init_debugger d) (reset s).
  Definition cmd_step (n : nat) (d : dbg) (s : S) : option (dbg * S) := debug n (with_stop true d) s.
  Definition cmd_next (n : nat) (d : dbg) (s : S) : option (dbg * S) :=
    match debug n (if is_call s then with_until (u16 (pc s + 4)) (with_stop false d) else with_stop true d) s with
    | Some (d', s') => Some (with_until 0 d', s')
    | None => None
    end.
  Definition cmd_go (n : nat) (d : dbg) (s : S) : option (dbg * S) := debug n (with_stop false d) s.

  (** pdbg_PrintTraceArray :488-522 *)
  Fixpoint print_trace (m index : nat) (a : nat -> E) : list E :=
    match m with
    | O => []
    | Datatypes.S m' => a index :: print_trace m' (if (TRACE_ARRAY_SIZE <=? index + 1)%nat then 0%nat else (index + 1)%nat) a
    end.
  Definition printed (d : dbg) : list E :=
    let index := (traceIndex d + TRACE_ARRAY_SIZE - nTracePoints d)%nat in
    print_trace (nTracePoints d) (if (TRACE_ARRAY_SIZE <=? index)%nat then (index - TRACE_ARRAY_SIZE)%nat else index) (traceArray d).
End Debugger.
