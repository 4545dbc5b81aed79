(** Calls of procedures and functions: pas_ActualParameterList and
    pas_ActualParameterSize (pascal/pas_procedure.c), pas_ProcStatement
    (pascal/pas_statement.c), pas_FunctionDesignator, pas_VarParameter and
    pas_PointerFactor (pascal/pas_expression.c), pas_GenerateProcedureCall
    (pascal/pas_codegen.c).

    Simplified: an argument is an expression as in ExprModel.v (thus without
    calls in it), or the name of a variable of a simple type.  Parameters that
    are real numbers, strings, enumerations, sets, arrays, records and files are
    not modelled, g_strStackFixup is thus 0. *)

From Coq Require Import ZArith Bool List.
From Verif Require Import Words Opcodes Machine ExprModel StmtModel ArrModel.
From Verif Require DeclModel.
Import ListNotations.
Open Scope Z_scope.

(** pascal/pas_tkndefs.h:60-90, include/pas_errcodes.h:222-311 *)
Definition sVAR_PARM := 0x5a.
Definition eCOMMA := 0x04.
Definition eINVPARMTYPE := 0x20.
Definition eINVVARPARM := 0x21.
Definition eNOTYET := 0x2b.
Definition ePTRADR := 0x34.
Definition eVARPARMTYPE := 0x55.

(** A formal parameter, procPtr[i]: sKind, and tType of the type vParent points
    to (None: NULL) *)
Record formal := mkFormal { fKind : Z; fType : option Z }.
(** A procedure or function: sLevel, pLabel, the parameters; of the type of the
    result tType and tAllocSize *)
Record proc := mkProc { pLevel : Z; pLabel : Z; pFormals : list formal; pType : Z; pSize : Z }.

Inductive lres := LDone (size : Z) (c : comp) | LNoFuel | LNotModelled.
Definition of_expr (size : Z) (r : res) : lres :=
  match r with Done _ c => LDone size c | NoFuel => LNoFuel | NotModelled => LNotModelled end.

(** Parameters which are not modelled.  By value: sREAL, sSTRING, sSCALAR, sSET,
    sARRAY, sRECORD *)
Definition other_values : list Z := [0x4f; 0x50; 0x53; 0x56; 0x57; 0x58].
(** VAR: sSCALAR, sSCALAR_OBJECT, sSET, sREAL, sSTRING, sRECORD, sRECORD_OBJECT,
    sFILE, sTEXTFILE, sARRAY *)
Definition other_vars : list Z := [0x53; 0x54; 0x56; 0x4f; 0x50; 0x58; 0x59; 0x45; 0x46; 0x57].
(** Tokens at which pas_PointerFactor branches to code that is not modelled:
    sSCALAR, sSET, sREAL, sSTRING, sFILE, sTEXTFILE, sSUBRANGE, sRECORD,
    sRECORD_OBJECT, sVAR_PARM, sPOINTER, sARRAY, '^', tNIL *)
Definition other_pointers : list Z :=
  [0x53; 0x56; 0x4f; 0x50; 0x45; 0x46; 0x55; 0x58; 0x59; 0x5a; 0x52; 0x57; 0x5e; 0x96].

(** pas_PointerFactor, pas_expression.c:2222-2328: the type pointed to *)
Fixpoint pointer_factor (n : nat) (c : comp) : res :=
  match n with
  | O => NoFuel
  | S n' =>
    match map_type (token c) with
    | Some t => Done t (getToken (stack_ref oLAS (tsym (cur c)) c))
    | None =>
      if existsb (Z.eqb (token c)) other_pointers then NotModelled
      else if token c =? tLPAREN then
        bindr (pointer_factor n' (getToken c)) (fun t c => Done t (StmtModel.expect tRPAREN eRPAREN c))
      else Done xUnknown (error ePTRADR c)
    end
  end.

(** pas_VarParameter, pas_expression.c:4168-4191; a type symbol is given *)
Definition var_parameter (n : nat) (t : etype) (c : comp) : res :=
  bindr (pointer_factor n c) (fun ft c => Done ft (error_if (negb (teq ft t)) eINVVARPARM c)).

(** One parameter, pas_procedure.c:2661-2877 *)
Definition actual (n : nat) (f : formal) (c : comp) : lres :=
  let k := fKind f in
  match map_type k with
  | Some t =>
    of_expr (if (k =? sLONGINT) || (k =? sLONGWORD) then DeclModel.INT_ALIGNUP 4
             else if (k =? sSHORTINT) || (k =? sSHORTWORD) || (k =? sCHAR) then DeclModel.INT_ALIGNUP 1
             else DeclModel.INT_ALIGNUP 2) (expression n t c)
  | None =>
    if k =? sSUBRANGE then of_expr (DeclModel.INT_ALIGNUP 2) (expression n xInteger c)
    else if k =? sVAR_PARM then
      match fType f with
      | None => LDone 0 (error eVARPARMTYPE c)
      | Some vt =>
        match (if vt =? sSUBRANGE then Some xInteger else map_type vt) with
        | Some t => of_expr (DeclModel.INT_ALIGNUP 2) (var_parameter n t c)
        | None => if existsb (Z.eqb vt) other_vars then LNotModelled
                  else LDone 0 (error (if vt =? 0x52 then eNOTYET else eVARPARMTYPE) c)
        end
      end
    else if existsb (Z.eqb k) other_values then LNotModelled
    else LDone 0 (error eINVPARMTYPE c)
  end.

(** The loop, :2655-2884 *)
Fixpoint actual_loop (n : nat) (fs : list formal) (size : Z) (c : comp) : lres :=
  match fs with
  | [] => LDone size c
  | f :: fs' =>
    match actual n f c with
    | LDone z c =>
      actual_loop n fs' (size + z)
        (match fs' with [] => c | _ => StmtModel.expect tCOMMA eCOMMA c end)
    | r => r
    end
  end.

(** pas_ActualParameterList :2602-2894 *)
Definition actual_list (n : nat) (fs : list formal) (c : comp) : lres :=
  let lparen := token c =? tLPAREN in
  let c := if lparen then getToken c else c in
  match actual_loop n fs 0 (match fs with [] => c | _ => error_if (negb lparen) eLPAREN c end) with
  | LDone size c => LDone size (if lparen then StmtModel.expect tRPAREN eRPAREN c else c)
  | r => r
  end.

(** pas_ActualParameterSize :2538-2600, for simple types.  It is what the debug
    records contain (pas_GenerateDebugInfo, pas_codegen.c:317-349); no type: not
    modelled. *)
Definition parameter_size (f : formal) : Z :=
  match fType f with
  | Some k =>
    if (k =? sLONGINT) || (k =? sLONGWORD) then DeclModel.INT_ALIGNUP 4
    else if (k =? sSHORTINT) || (k =? sSHORTWORD) || (k =? sCHAR) then DeclModel.INT_ALIGNUP 1
    else DeclModel.INT_ALIGNUP 2
  | None => 0
  end.

(** pas_GenerateProcedureCall, pas_codegen.c:285-306; the level is a uint16_t *)
Definition procedure_call_op (p : proc) : comp -> comp := emit oPCAL (u16 (pLevel p + 1)) (pLabel p).

(** pas_ProcStatement, pas_statement.c:1457-1504: the current token is the name *)
Definition proc_statement (n : nat) (p : proc) (c : comp) : ares :=
  match actual_list n (pFormals p) (getToken c) with
  | LDone size c =>
    let c := procedure_call_op p c in
    ADone (if 0 <? size then data_op oINDS (- size) c else c)
  | LNoFuel => ANoFuel
  | LNotModelled => ANotModelled
  end.

(** pas_FunctionDesignator, pas_expression.c:2959-3035, for results of a simple
    type (pas_GetExpressionType :4324-4477) *)
Definition function_designator (n : nat) (p : proc) (c : comp) : res :=
  match map_type (pType p) with
  | None => NotModelled
  | Some t =>
    match actual_list n (pFormals p) (getToken (data_op oINDS (DeclModel.INT_ALIGNUP (pSize p)) c)) with
    | LDone size c =>
      let c := procedure_call_op p c in
      Done t (if size =? 0 then c else data_op oINDS (- size) c)
    | LNoFuel => NoFuel
    | LNotModelled => NotModelled
    end
  end.
