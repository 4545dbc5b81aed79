(** FilePos, FileSize and Seek: pascal/pas_stdfunc.c:396-429 and 1242-1250,
    pascal/pas_procedure.c:879-923; the operands that libexec_sysio takes from the stack for
    Seek, insn16/libexec/libexec_sysio.c:1315-1323.  Definitions only.

    Simplified: as in WriteModel.v.  Not modelled: files that are VAR parameters, pointers
    to files, arrays of files; ftell and fseek. *)

From Coq Require Import ZArith Bool List.
From Verif Require Import Words State Opcodes LongModel ExprModel StmtModel ArrModel ActModel WriteModel.
From Verif Require SysioModel.
Import ListNotations.
Open Scope Z_scope.

(** pascal/pas_tkndefs.h:230-237, include/pas_errcodes.h:250 *)
Definition txFILEPOS := 0x8c.
Definition txFILESIZE := 0x8d.
Definition txSEEK := 0x93.
Definition eINVFILETYPE := 0x1c.

(** pas_GenerateFileNumber(NULL, NULL), pas_procedure.c:2512-2533 with 159-345 and 349-372:
    there is no default file.  The result is whether it is a text file. *)
Definition strict_number (c : comp) : option (bool * comp) :=
  if existsb (Z.eqb (token c)) [sPOINTER; sVAR_PARM; sARRAY] then None
  else if (token c =? sFILE) || (token c =? sTEXTFILE) then
    Some (token c =? sTEXTFILE, getToken (stack_ref oLDS (tsym (cur c)) c))
  else Some (true, error eINVFILETYPE c).

(** pas_FilePosFunc :396-429 with pas_CheckLParen :1372-1377; exprInt64 is exprLongInteger,
    pas_expression.h:155.  The name of the function is the current token. *)
Definition pos_func (opcode : Z) (c : comp) : res :=
  let c := expect tLPAREN eLPAREN (getToken c) in
  match strict_number (getToken c) with
  | Some (text, c) => Done xLongInteger (expect tRPAREN eRPAREN (io_op opcode (error_if (negb text) eINVFILE c)))
  | None => NotModelled
  end.

(** pas_StandardFunction :1242-1250 *)
Definition pos_function (c : comp) : res :=
  if negb (token c =? tSTDFUNC) then NotModelled
  else if tsub (cur c) =? txFILEPOS then pos_func SysioModel.xFILEPOS c
  else if tsub (cur c) =? txFILESIZE then pos_func SysioModel.xFILESIZE c
  else NotModelled.

(** pas_SeekProc :879-923 *)
Definition seek_proc (n : nat) (c : comp) : ares :=
  let c := getToken c in
  let c := getToken (error_if (negb (token c =? tLPAREN)) eLPAREN c) in
  match strict_number c with
  | None => ANotModelled
  | Some (_, c) =>
    match expression n xLongInteger (expect tCOMMA eCOMMA c) with
    | Done t c => ADone (expect tRPAREN eRPAREN (io_op SysioModel.xSEEK (error_if (negb (teq t xLongInteger)) eINVARG c)))
    | NoFuel => ANoFuel
    | NotModelled => ANotModelled
    end
  end.

(** pas_StandardProcedure :2399-2401 *)
Definition seek_statement (n : nat) (c : comp) : ares :=
  if negb (token c =? tSTDPROC) then ANotModelled
  else if tsub (cur c) =? txSEEK then seek_proc n c
  else ANotModelled.

(** The file number and the position that libexec_sysio hands to libexec_Seek, and the
    stack without them *)
Definition seek_operands (s : st) : option (Z * Z * st) :=
  match pop s with
  | Some (n, s) => match upop32 s with Some (p, s) => Some (n, p, s) | None => None end
  | None => None
  end.
