(** HALT and EXIT: pascal/pas_procedure.c:376-411, 2377-2383; their execution:
    insn16/libexec/libexec_oslib.c:342-347, libexec_run.c:727-729, libexec_runloop.c:59-83.
    Definitions only.

    Simplified: as in ExprModel.v; the code that precedes the end contains no system I/O. *)

From Coq Require Import ZArith Bool List.
From Verif Require Import Words State Opcodes EncodeModel Machine ExprModel StmtModel ArrModel.
Import ListNotations.
Open Scope Z_scope.

(** pascal/pas_tkndefs.h:216-218, include/pas_oslib.h:55 *)
Definition txEXIT := 0x81.
Definition txHALT := 0x83.
Definition osEXIT := 0x00.

(** pas_OsInterfaceCall, pas_codegen.c:219-222, insn_generate.c:294-297 *)
Definition os_op (f : Z) : comp -> comp := emit oOSOP f 0.

(** pas_ExitProc :376-398 *)
Definition exit_proc (n : nat) (c : comp) : ares :=
  match expression n xInteger (expect tLPAREN eLPAREN (getToken c)) with
  | Done t c => ADone (os_op osEXIT (expect tRPAREN eRPAREN (error_if (negb (teq t xInteger)) eINVARG c)))
  | NoFuel => ANoFuel
  | NotModelled => ANotModelled
  end.

(** pas_HaltProc :402-411 *)
Definition halt_proc (c : comp) : ares := ADone (os_op osEXIT (data_op oPUSH 0 (getToken c))).

(** pas_StandardProcedure :2377-2383 *)
Definition end_statement (n : nat) (c : comp) : ares :=
  if negb (token c =? tSTDPROC) then ANotModelled
  else if tsub (cur c) =? txEXIT then exit_proc n c
  else if tsub (cur c) =? txHALT then halt_proc c
  else ANotModelled.

(** libexec_RunLoop :59-83: instructions are executed until one returns eEXIT; what it prints
    then, st->exitCode, an int16_t (insn16/include/libexec.h:319).  [None]: the instructions
    come to an end before, or an error *)
Fixpoint exit_code (ps : list opType) (s : st) : option Z :=
  match ps with
  | [] => None
  | p :: r =>
    if op p =? oOSOP then
      if arg1 p =? osEXIT then match pop s with Some (v, _) => Some (s16 v) | None => None end else None
    else match exec_insn s p with Ok s' => exit_code r s' | _ => None end
  end.
