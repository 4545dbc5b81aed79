(** SIZEOF: pascal/pas_stdfunc.c:1095-1098, 1312-1369 and 1372-1385, pascal/pas_constfunc.c:293-296.
    Definitions only.

    Simplified: as in ExprModel.v.  tAllocSize, which the symbols of ExprModel.v do not have, is
    a parameter. *)

From Coq Require Import ZArith Bool List.
From Verif Require Import Words Opcodes ExprModel StmtModel.
Import ListNotations.
Open Scope Z_scope.

(** pascal/pas_tkndefs.h:82, 251, include/pas_machine.h:99 *)
Definition txSIZEOF := 0x9b.
Definition sTYPE := 0x44.
Definition sPTR_SIZE := 2.
(** The tokens :1323-1340: sFILE to sSTRING, sSCALAR, sSUBRANGE, sSET, sARRAY, sRECORD *)
Definition sized_kinds : list Z :=
  [0x45; 0x46; 0x47; 0x48; 0x49; 0x4a; 0x4b; 0x4c; 0x4d; 0x4e; 0x4f; 0x50; 0x53; 0x55; 0x56; 0x57; 0x58].
(** The tokens :1345-1346: sPOINTER, sVAR_PARM *)
Definition pointer_kinds : list Z := [0x52; 0x5a].

(** pas_SizeOfFunc :1312-1369; size is a uint16_t; [alloc] is sParm.t.tAllocSize *)
Definition sizeof_func (alloc : tok -> Z) (c : comp) : comp :=
  let c := expect tLPAREN eLPAREN (getToken c) in
  let '(size, c) :=
    if existsb (Z.eqb (token c)) sized_kinds then (u16 (vSize (tsym (cur c))), c)
    else if existsb (Z.eqb (token c)) pointer_kinds then (sPTR_SIZE, c)
    else if token c =? sTYPE then (u16 (alloc (cur c)), c)
    else (0, error eINVARG c) in
  expect tRPAREN eRPAREN (getToken (data_op oPUSH size c)).

(** pas_StandardFunction :1095-1098 *)
Definition size_function (alloc : tok -> Z) (c : comp) : res :=
  if (token c =? tSTDFUNC) && (tsub (cur c) =? txSIZEOF) then Done xInteger (sizeof_func alloc c) else NotModelled.

(** pas_StandardFunctionOfConstant, pas_constfunc.c:293-296: the value of the constant,
    g_constantInt, of which [k] is the value before *)
Definition size_constant (alloc : tok -> Z) (k : Z) (c : comp) : Z * comp := (k, sizeof_func alloc c).
