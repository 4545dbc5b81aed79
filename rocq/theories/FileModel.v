(** RESET, REWRITE, APPEND, CLOSEFILE, PAGE and FLUSH: pascal/pas_procedure.c:755-873.
    Definitions only.

    Simplified: as in WriteModel.v.  Not modelled: Seek, AssignFile, files that are VAR
    parameters, pointers to files, arrays of files. *)

From Coq Require Import ZArith Bool List.
From Verif Require Import Words Opcodes ExprModel StmtModel ArrModel WriteModel.
From Verif Require SysioModel.
Import ListNotations.
Open Scope Z_scope.

(** pascal/pas_tkndefs.h:221-264 *)
Definition txPAGE := 0x86.
Definition txAPPEND := 0x89.
Definition txCLOSEFILE := 0x8b.
Definition txRESET := 0x91.
Definition txREWRITE := 0x92.
Definition txFLUSH := 0xa5.

Section File.
  (** g_outputFile *)
  Variable outf : sym.

  (** pas_OpenFileProc :777-823; the name of the procedure is the current token *)
  Definition open_proc (opcode1 opcode2 : Z) (n : nat) (c : comp) : ares :=
    let c := getToken c in
    if token c =? tLPAREN then
      match file_number outf (getToken c) with
      | Some (_, c) =>
        if token c =? tCOMMA then
          match expression n xInteger (getToken c) with
          | Done _ c => ADone (expect tRPAREN eRPAREN (io_op opcode2 c))
          | NoFuel => ANoFuel
          | NotModelled => ANotModelled
          end
        else ADone (expect tRPAREN eRPAREN (io_op opcode1 c))
      | None => ANotModelled
      end
    else ADone (io_op opcode1 (stack_ref oLDS outf c)).

  (** pas_FileProc :838-873 *)
  Definition file_proc (opcode : Z) (c : comp) : ares :=
    let c := getToken c in
    if token c =? tLPAREN then
      match file_number outf (getToken c) with
      | Some (_, c) => ADone (expect tRPAREN eRPAREN (io_op opcode c))
      | None => ANotModelled
      end
    else ADone (io_op opcode (stack_ref oLDS outf c)).

  (** pas_StandardProcedure :2394-2500, these six *)
  Definition file_statement (n : nat) (c : comp) : ares :=
    if negb (token c =? tSTDPROC) then ANotModelled
    else if tsub (cur c) =? txPAGE then file_proc SysioModel.xWRITE_PAGE c
    else if tsub (cur c) =? txRESET then open_proc SysioModel.xRESET SysioModel.xRESETR n c
    else if tsub (cur c) =? txREWRITE then open_proc SysioModel.xREWRITE SysioModel.xREWRITER n c
    else if tsub (cur c) =? txAPPEND then file_proc SysioModel.xAPPEND c
    else if tsub (cur c) =? txCLOSEFILE then file_proc SysioModel.xCLOSEFILE c
    else if tsub (cur c) =? txFLUSH then file_proc SysioModel.xFLUSH c
    else ANotModelled.
End File.
