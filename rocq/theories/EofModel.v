(** Eof, Eoln, SeekEof and SeekEoln: pascal/pas_stdfunc.c:349-391 and 1222-1240.
    Definitions only.

    Simplified: as in WriteModel.v.  Not modelled: files that are VAR parameters, pointers
    to files, arrays of files. *)

From Coq Require Import ZArith Bool List.
From Verif Require Import Words Opcodes ExprModel StmtModel WriteModel.
From Verif Require SysioModel.
Import ListNotations.
Open Scope Z_scope.

(** pascal/pas_tkndefs.h:196, 232-239 *)
Definition txEOLN := 0x06.
Definition txEOF := 0x8e.
Definition txSEEKEOF := 0x94.
Definition txSEEKEOLN := 0x95.

Section Eof.
  (** g_inputFile *)
  Variable inf : sym.

  (** pas_FileFunc :349-391; the name of the function is the current token *)
  Definition file_func (opcode : Z) (c : comp) : res :=
    let c := getToken c in
    if token c =? tLPAREN then
      match file_number inf (getToken c) with
      | Some (_, c) => Done xBoolean (expect tRPAREN eRPAREN (io_op opcode c))
      | None => NotModelled
      end
    else Done xBoolean (io_op opcode (stack_ref oLDS inf c)).

  (** pas_StandardFunction :1222-1240, these four *)
  Definition file_function (c : comp) : res :=
    if negb (token c =? tSTDFUNC) then NotModelled
    else if tsub (cur c) =? txEOF then file_func SysioModel.xEOF c
    else if tsub (cur c) =? txEOLN then file_func SysioModel.xEOLN c
    else if tsub (cur c) =? txSEEKEOF then file_func SysioModel.xSEEKEOF c
    else if tsub (cur c) =? txSEEKEOLN then file_func SysioModel.xSEEKEOLN c
    else NotModelled.
End Eof.
