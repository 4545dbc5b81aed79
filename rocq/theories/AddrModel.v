(** ADDR: pascal/pas_stdfunc.c:145-204, 1079-1081 and 1372-1385.  Definitions only.

    Simplified: as in ExprModel.v. *)

From Coq Require Import ZArith Bool List.
From Verif Require Import Opcodes ExprModel StmtModel.
Import ListNotations.
Open Scope Z_scope.

(** pascal/pas_tkndefs.h:192, include/pas_errcodes.h *)
Definition txADDR := 0x02.
Definition eNOTYET := 0x2b.

(** The tokens :163-165: sPROC, sFUNC, sLABEL *)
Definition routine_kinds : list Z := [0x41; 0x42; 0x43].
(** The tokens :171-189: sFILE, sTEXTFILE, sINT to sSTRING, sPOINTER, sSCALAR, sSUBRANGE, sSET,
    sARRAY, sRECORD, sVAR_PARM *)
Definition name_kinds : list Z :=
  [0x45; 0x46; 0x47; 0x48; 0x49; 0x4a; 0x4b; 0x4c; 0x4d; 0x4e; 0x4f; 0x50; 0x52; 0x53; 0x55; 0x56; 0x57; 0x58; 0x5a].

(** pas_AddrFunc :145-204: whether the type is exprAnyPointer (otherwise exprUnknown) *)
Definition addr_func (c : comp) : bool * comp :=
  let c := expect tLPAREN eLPAREN (getToken c) in
  let '(p, c) :=
    if existsb (Z.eqb (token c)) routine_kinds then (false, error eNOTYET c)
    else if existsb (Z.eqb (token c)) name_kinds then (true, stack_ref oLAS (tsym (cur c)) c)
    else (false, error eINVARG c) in
  (p, expect tRPAREN eRPAREN (getToken c)).

(** pas_StandardFunction :1064-1081; [None]: not ADDR *)
Definition addr_function (c : comp) : option (bool * comp) :=
  if (token c =? tSTDFUNC) && (tsub (cur c) =? txADDR) then Some (addr_func c) else None.
