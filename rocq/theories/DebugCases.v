(** The debugger: cases, and what contradicts the statement. *)

From Coq Require Import ZArith Bool List Lia ZifyBool.
From Verif Require Import Words DebugModel DebugSpec DebugMain DebugRun.
Import ListNotations.
Open Scope Z_scope.

(** Instructions of three bytes, executed one after the other *)
Definition line (s : Z) : bool * Z := (true, s + 3).
Definition d0 : dbg Z := mkDbg Z (fun _ => 0) 0 0 false (fun _ => 0) 0 0.
Definition d1 := cmd_bs Z 100 60 (cmd_bs Z 100 30 d0).
Lemma d0_sound : sound d0 /\ untilPoint Z d0 = 0.
Proof. split; [split; [constructor|cbn; lia]|reflexivity]. Qed.
Lemma d1_sound : sound d1 /\ untilPoint Z d1 = 0 /\ listed Z d1 = [30; 60] /\ listed Z (cmd_bc Z 1 d1) = [60].
Proof.
  split; [|split; [reflexivity|split; reflexivity]].
  destruct d0_sound as (A & _). exact (proj1 (bs_listed Z 100 60 _ (proj1 (bs_listed Z 100 30 _ A)))).
Qed.
(** Go from 3 stops at 30; from there at 60, and the trace contains the last 16 addresses. *)
Definition went (n : nat) (d : dbg Z) (s : Z) : dbg Z := match cmd_go Z Z (fun s => s) line (fun s => s) 100 n d s with Some (d', _) => d' | None => d end.
Lemma d1_go : (exists d', cmd_go Z Z (fun s => s) line (fun s => s) 100 20 d1 3 = Some (d', 30)) /\
  printed Z (went 20 d1 3) = [3; 6; 9; 12; 15; 18; 21; 24; 27] /\
  (exists d', cmd_go Z Z (fun s => s) line (fun s => s) 100 20 (went 20 d1 3) 30 = Some (d', 60)) /\
  printed Z (went 20 (went 20 d1 3) 30) = [12; 15; 18; 21; 24; 27; 30; 33; 36; 39; 42; 45; 48; 51; 54; 57].
Proof.
  split; [eexists; vm_compute; reflexivity|]. split; [vm_compute; reflexivity|]. split; [eexists; vm_compute; reflexivity|]. vm_compute. reflexivity.
Qed.

(** RUN does not stop at a breakpoint at the entry point. *)
Definition d2 := cmd_bs Z 20 0 d0.
Lemma entry_refuted : sound d2 /\ untilPoint Z d2 = 0 /\ In 0 (listed Z d2) /\
  exists d', cmd_run Z Z (fun s => s) line (fun _ => 0) (fun s => s) 20 10 d2 0 = Some (d', 21).
Proof.
  split; [exact (proj1 (bs_listed Z 20 0 _ (proj1 d0_sound)))|]. split; [vm_compute; reflexivity|]. split; [vm_compute; left; reflexivity|].
  eexists. vm_compute. reflexivity.
Qed.

(** Calls and returns: a procedure at 8 that calls itself, with 12 as the address behind the
    call, until there are three return addresses, and returns at 12 *)
Definition calls (s : Z * list Z) : bool * (Z * list Z) :=
  let (p, l) := s in
  if p =? 8 then if (length l <? 3)%nat then (true, (8, 12 :: l)) else (true, (12, l))
  else if p =? 12 then match l with a :: l => (true, (a, l)) | [] => (false, s) end
  else (false, s).
(** NEXT at the call stops in the procedure called, not behind the call: two more return
    addresses are on the stack.  Execution goes on to the place behind the call. *)
Lemma next_stops_inside :
  (exists d', cmd_next (Z * list Z) Z fst calls (fun s => (fst s =? 8) && (length (snd s) <? 3)%nat) fst 100 10 d0 (8, [4]) = Some (d', (12, [12; 12; 4]))) /\
  steps (Z * list Z) calls 2 (12, [12; 12; 4]) = (12, [4]).
Proof. split; [eexists; vm_compute; reflexivity|reflexivity]. Qed.
