(** Properties of the debugger. *)

From Coq Require Import ZArith Bool List Lia.
From Verif Require Import DebugModel DebugSpec DebugMain DebugRun DebugCases.
Import ListNotations.
Open Scope Z_scope.

(** ** C104 breakpoints *)

(** BS adds an address at the end, unless it is there, or eight are, or it is no address of
    the program. *)
Theorem C104_set : forall E maxpc a (d : dbg E), sound d ->
  sound (cmd_bs E maxpc a d) /\
  listed E (cmd_bs E maxpc a d) =
    if (length (listed E d) <? 8)%nat && (a <? maxpc) && negb (if in_dec Z.eq_dec a (listed E d) then true else false)
    then listed E d ++ [a] else listed E d.
Proof. exact bs_listed. Qed.
Print Assumptions C104_set.

(** BC removes the k-th. *)
Theorem C104_clear : forall E k (d : dbg E), sound d ->
  sound (cmd_bc E k d) /\
  listed E (cmd_bc E k d) =
    if (1 <=? k) && (k <=? Z.of_nat (length (listed E d))) then firstn (Z.to_nat k - 1) (listed E d) ++ skipn (Z.to_nat k) (listed E d)
    else listed E d.
Proof. exact bc_listed. Qed.
Print Assumptions C104_clear.

Example C104_case : sound d1 /\ untilPoint Z d1 = 0 /\ listed Z d1 = [30; 60] /\ listed Z (cmd_bc Z 1 d1) = [60].
Proof. exact d1_sound. Qed.

(** ** C105 execution under the debugger *)

(** GO stops behind the first instruction that gives a reason; the trace contains the last 16
    states. *)
Theorem C105_go : forall S E pc exec snap maxpc n (d : dbg E) (s : S) d' s',
  cmd_go S E pc exec snap maxpc n d s = Some (d', s') -> sound d -> untilPoint E d = 0 ->
  exists k, s' = steps S exec k s /\ stops_at S pc exec maxpc (listed E d) None s k /\
    sound d' /\ listed E d' = listed E d /\ untilPoint E d' = 0 /\
    printed E d' = last_n 16 (printed E d ++ map (fun j => snap (steps S exec j s)) (seq 0 k)).
Proof. exact go_spec. Qed.
Print Assumptions C105_go.

Theorem C105_go_ends : forall S E pc exec snap maxpc n (d : dbg E) (s : S) k, sound d -> untilPoint E d = 0 ->
  stops_at S pc exec maxpc (listed E d) None s k -> (k <= n)%nat -> cmd_go S E pc exec snap maxpc n d s <> None.
Proof. exact go_ends. Qed.
Print Assumptions C105_go_ends.

Theorem C105_step : forall S E pc exec snap maxpc n (d : dbg E) (s : S), (1 <= n)%nat -> sound d -> untilPoint E d = 0 ->
  exists d', cmd_step S E pc exec snap maxpc n d s = Some (d', snd (exec s)) /\
    sound d' /\ listed E d' = listed E d /\ untilPoint E d' = 0 /\ printed E d' = last_n 16 (printed E d ++ [snap s]).
Proof. exact step_spec. Qed.
Print Assumptions C105_step.

(** NEXT: one instruction; at a call, up to the address behind it *)
Theorem C105_next : forall S E pc exec is_call snap maxpc n (d : dbg E) (s : S) d' s',
  cmd_next S E pc exec is_call snap maxpc n d s = Some (d', s') -> sound d -> untilPoint E d = 0 -> 0 <= pc s < 65532 ->
  (exists k, s' = steps S exec k s /\ (if is_call s then stops_at S pc exec maxpc (listed E d) (Some (pc s + 4)) s k else k = 1%nat) /\
     printed E d' = last_n 16 (printed E d ++ map (fun j => snap (steps S exec j s)) (seq 0 k))) /\
  sound d' /\ listed E d' = listed E d /\ untilPoint E d' = 0.
Proof. exact (fun S E pc exec is_call snap maxpc => next_spec S E pc exec snap maxpc is_call). Qed.
Print Assumptions C105_next.

(** RUN: from the beginning, with an empty trace *)
Theorem C105_run : forall S E pc exec reset snap maxpc n (d : dbg E) (s : S) d' s',
  cmd_run S E pc exec reset snap maxpc n d s = Some (d', s') -> sound d -> untilPoint E d = 0 ->
  exists k, s' = steps S exec k (reset s) /\ stops_at S pc exec maxpc (listed E d) None (reset s) k /\
    sound d' /\ listed E d' = listed E d /\ untilPoint E d' = 0 /\
    printed E d' = last_n 16 (map (fun j => snap (steps S exec j (reset s))) (seq 0 k)).
Proof. exact (fun S E pc exec reset snap maxpc => run_spec S E pc exec snap maxpc reset). Qed.
Print Assumptions C105_run.

Example C105_case : (exists d', cmd_go Z Z (fun s => s) line (fun s => s) 100 20 d1 3 = Some (d', 30)) /\
  printed Z (went 20 d1 3) = [3; 6; 9; 12; 15; 18; 21; 24; 27] /\
  (exists d', cmd_go Z Z (fun s => s) line (fun s => s) 100 20 (went 20 d1 3) 30 = Some (d', 60)) /\
  printed Z (went 20 (went 20 d1 3) 30) = [12; 15; 18; 21; 24; 27; 30; 33; 36; 39; 42; 45; 48; 51; 54; 57].
Proof. exact d1_go. Qed.

(** A breakpoint at the entry point does not stop RUN. *)
Theorem C105_entry_refuted : sound d2 /\ untilPoint Z d2 = 0 /\ In 0 (listed Z d2) /\
  exists d', cmd_run Z Z (fun s => s) line (fun _ => 0) (fun s => s) 20 10 d2 0 = Some (d', 21).
Proof. exact entry_refuted. Qed.
Print Assumptions C105_entry_refuted.

(** NEXT at a recursive call stops in the procedure called. *)
Theorem C105_next_refuted :
  (exists d', cmd_next (Z * list Z) Z fst calls (fun s => (fst s =? 8) && (length (snd s) <? 3)%nat) fst 100 10 d0 (8, [4]) = Some (d', (12, [12; 12; 4]))) /\
  steps (Z * list Z) calls 2 (12, [12; 12; 4]) = (12, [4]).
Proof. exact next_stops_inside. Qed.
Print Assumptions C105_next_refuted.
