(** The expression compiler: pascal/pas_expression.c, with the functions of
    pascal/pas_codegen.c and insn16/libinsn/insn_generate.c it calls.

    Simplified: the tokens are given (TokenModel.v delivers them); of a symbol
    only level, offset and size, or the type it names, are kept; there are no
    undefined external variables; error() records the code and returns
    (CONFIG_DEBUG off, fewer than MAX_ERRORS errors).  Real numbers, strings,
    sets, scalars, pointers, arrays, records, VAR parameters, subranges and
    function calls are not modelled: [NotModelled]; of the standard functions,
    Abs, Sqr, Pred, Succ, Ord, Odd and Chr are. *)

From Coq Require Import ZArith Bool List.
From Verif Require Import Words State Opcodes Machine EncodeModel.
Import ListNotations.
Open Scope Z_scope.

(** ** Token codes: pascal/pas_tkndefs.h:47-140 *)
Definition tIDENT := 0x01.
Definition tINT_CONST := 0x02.
Definition tCHAR_CONST := 0x03.
Definition tBOOLEAN_CONST := 0x04.
Definition tLE := 0x08.
Definition tGE := 0x09.
Definition tSYMDIFF := 0x0c.
Definition tNE := 0x23.
Definition tAMP := 0x26.      (* '&' *)
Definition tLPAREN := 0x28.
Definition tRPAREN := 0x29.
Definition tMUL := 0x2a.
Definition tPLUS := 0x2b.
Definition tMINUS := 0x2d.
Definition tFDIV := 0x2f.
Definition tLT := 0x3c.
Definition tEQ := 0x3d.
Definition tGT := 0x3e.
Definition tBAR := 0x7c.      (* '|' *)
Definition tTILDE := 0x7e.
Definition sTYPE := 0x44.
Definition sINT := 0x47.
Definition sWORD := 0x48.
Definition sSHORTINT := 0x49.
Definition sSHORTWORD := 0x4a.
Definition sLONGINT := 0x4b.
Definition sLONGWORD := 0x4c.
Definition sBOOLEAN := 0x4d.
Definition sCHAR := 0x4e.
Definition tAND := 0x80.
Definition tDIV := 0x85.
Definition tIN := 0x91.
Definition tMOD := 0x95.
Definition tNOT := 0x97.
Definition tOR := 0x99.
Definition tXOR := 0x9a.
Definition tSHL := 0xa1.
Definition tSHR := 0xa2.
Definition tSTDFUNC := 0xc0.
(** Standard functions: pascal/pas_tkndefs.h:191-206 *)
Definition txABS := 0x01.
Definition txCHR := 0x04.
Definition txODD := 0x09.
Definition txORD := 0x0a.
Definition txPRED := 0x0b.
Definition txSQR := 0x0e.
Definition txSUCC := 0x10.

(** Tokens at which pas_Factor branches to code that is not modelled:
    tREAL_CONST, sSCALAR_OBJECT, sREAL, tSTRING_CONST, sSTRING_CONST, sSTRING,
    sSCALAR, sSET, '[', sSUBRANGE, sRECORD, sRECORD_OBJECT, sVAR_PARM, sPOINTER,
    sARRAY, sFUNC, '^', tNIL, '@' *)
Definition other_factors : list Z :=
  [0x05; 0x54; 0x4f; 0x06; 0x51; 0x50; 0x53; 0x56; 0x5b; 0x55; 0x58; 0x59; 0x5a; 0x52;
   0x57; 0x42; 0x5e; 0x96; 0x40].

(** ** Error codes: include/pas_errcodes.h:222-296 *)
Definition eINTOVF := 0x13.
Definition eINVARG := 0x17.
Definition eINVFACTOR := 0x1a.
Definition eLPAREN := 0x28.
Definition eRPAREN := 0x37.
Definition eUNDEFSYM := 0x41.
Definition eEXPRTYPE := 0x43.
Definition eSHIFTTYPE := 0x44.
Definition eTERMTYPE := 0x45.
Definition eFACTORTYPE := 0x46.

(** ** Expression types: pascal/pas_expression.h:105-127, as far as modelled *)
Inductive etype := xUnknown | xAnyOrdinal | xInteger | xWord | xShortInteger | xShortWord
                 | xLongInteger | xLongWord | xChar | xBoolean.

Definition teq (a b : etype) : bool :=
  match a, b with
  | xUnknown, xUnknown | xAnyOrdinal, xAnyOrdinal | xInteger, xInteger | xWord, xWord
  | xShortInteger, xShortInteger | xShortWord, xShortWord | xLongInteger, xLongInteger
  | xLongWord, xLongWord | xChar, xChar | xBoolean, xBoolean => true
  | _, _ => false
  end.

Definition among (t : etype) (l : list etype) : bool := existsb (teq t) l.
(** The conditions that recur in the code *)
Definition int16s := [xInteger; xWord; xShortInteger; xShortWord].
Definition longs := [xLongInteger; xLongWord].
Definition signed16s := [xInteger; xShortInteger].
Definition words16s := [xWord; xShortWord].

(** ** Tokens and the state of the compiler *)

(** symbol_t (pascal/pas_defns.h): sLevel, vOffset, vSize of a variable; tType of
    a type *)
Record sym := mkSym { sLevel : Z; vOffset : Z; vSize : Z; tType : Z }.
(** g_token, g_tknUInt, g_tknSubType, g_tknPtr, FP->line *)
Record tok := mkTok { tk : Z; tval : Z; tsub : Z; tsym : sym; tline : Z }.
Definition nosym := mkSym 0 0 0 0.
(** What getToken leaves behind the last token; the code depends only on its
    being none of the tokens that are tested for. *)
Definition eoftok := mkTok 0 0 0 nosym 0.

(** The unread tokens (the first is the current one), the code generated, the
    errors, g_label, g_level, g_continueLabel, g_breakLabel, g_stackAdjust *)
Record comp := mkComp
  { toks : list tok; out : list opType; errs : list Z; g_label : Z; g_level : Z;
    g_continue : Z; g_break : Z; g_adjust : Z }.

Definition cur (c : comp) : tok := hd eoftok (toks c).
Definition token (c : comp) : Z := tk (cur c).
(** getToken() *)
Definition getToken (c : comp) : comp :=
  mkComp (tl (toks c)) (out c) (errs c) (g_label c) (g_level c) (g_continue c) (g_break c) (g_adjust c).
(** error(), pascal/pas_error.c:174-191 *)
Definition error (e : Z) (c : comp) : comp :=
  mkComp (toks c) (out c) (errs c ++ [e]) (g_label c) (g_level c) (g_continue c) (g_break c) (g_adjust c).
Definition error_if (b : bool) (e : Z) (c : comp) : comp := if b then error e c else c.

Definition append (p : opType) (c : comp) : comp :=
  mkComp (toks c) (out c ++ [p]) (errs c) (g_label c) (g_level c) (g_continue c) (g_break c) (g_adjust c).

(** insn16_Generate, insn16/libinsn/insn_generate.c:212-236: the instruction is
    written even if an operand is out of range.  [code] is the entry of
    g_opCodeMap (:65-167), which maps opXXX to oXXX.  (EncodeModel.generate
    describes the bytes.) *)
Definition emit (code a1 a2 : Z) (c : comp) : comp :=
  let c := error_if (has8 code && (0xff <? a1)) eINTOVF c in
  let c := error_if (has16 code && ((a2 <? -32768) || (65535 <? a2))) eINTOVF c in
  append (mkOp code (if has8 code then u8 a1 else 0) (if has16 code then u16 a2 else 0)) c.

(** pas_GenerateSimple, pas_GenerateDataOperation, pas_GenerateDataSize:
    pascal/pas_codegen.c:154-185 *)
Definition simple_op (code : Z) : comp -> comp := emit code 0 0.
Definition data_op (code data : Z) : comp -> comp := emit code 0 data.
(** pas_GenerateSimpleLongOperation :573-576, insn16_longOpcodeGenerate
    (insn_genlongop.c:168-200); [code] is the entry of g_longOpcodeMap. *)
Definition long_op (code : Z) : comp -> comp := append (mkOp oLONGOP8 code 0).

(** pas_GetLevel0Opcode, pas_codegen.c:122-146; -1: INVALID_PCODE *)
Definition level0 (code : Z) : Z :=
  if code =? oLDS then oLD else if code =? oLDSB then oLDB else if code =? oULDSB then oULDB
  else if code =? oLDSM then oLDM else if code =? oSTS then oST else if code =? oSTSB then oSTB
  else if code =? oSTSM then oSTM else if code =? oLDSX then oLDX else if code =? oLDSXB then oLDXB
  else if code =? oULDSXB then oULDXB else if code =? oLDSXM then oLDXM else if code =? oSTSX then oSTX
  else if code =? oSTSXB then oSTXB else if code =? oSTSXM then oSTXM else if code =? oLAS then oLA
  else if code =? oLASX then oLAX else -1.

(** pas_GenerateStackReference :247-271 and pas_GenerateLevel0StackReference
    :78-115 (eHUH for a negative offset).  The level is a uint16_t. *)
Definition stack_ref (code : Z) (v : sym) (c : comp) : comp :=
  if (sLevel v =? 0) && (0 <=? level0 code) then
    if vOffset v <? 0 then error eHUH c else emit (level0 code) 0 (vOffset v) c
  else emit code (u16 (g_level c - sLevel v)) (vOffset v) c.

Inductive res := Done (t : etype) (c : comp) | NoFuel | NotModelled.

Definition bindr (r : res) (k : etype -> comp -> res) : res :=
  match r with Done t c => k t c | NoFuel => NoFuel | NotModelled => NotModelled end.

(** ** Instructions selected *)

(** pas_SimpleExpression :176-200, the unary minus *)
Definition negate (t : etype) (c : comp) : comp :=
  if among t int16s then simple_op oNEG c
  else if among t longs then long_op 0x41 c
  else error eTERMTYPE c.

(** :268-333: are terms of different types accepted? *)
Definition term_mix (t1 t2 : etype) : bool :=
  teq t1 t2 || (among t1 int16s && among t2 int16s) || (among t1 longs && among t2 longs).

(** :348-509, the switch on the operation; the type of the first term counts *)
Definition add_op (operation : Z) (t1 : etype) (c : comp) : comp :=
  if operation =? tPLUS then
    if among t1 int16s then simple_op oADD c
    else if among t1 longs then long_op 0x46 c else error eTERMTYPE c
  else if operation =? tMINUS then
    if among t1 int16s then simple_op oSUB c
    else if among t1 longs then long_op 0x47 c else error eTERMTYPE c
  else if (operation =? tBAR) || (operation =? tOR) then
    if among t1 int16s || teq t1 xBoolean then simple_op oOR c
    else if among t1 longs then long_op 0x4e c else error eTERMTYPE c
  else if operation =? tXOR then
    if among t1 int16s || teq t1 xBoolean then simple_op oXOR c
    else if among t1 longs then long_op 0x68 c else error eTERMTYPE c
  else error eTERMTYPE c.

Definition is_addop (t : Z) : bool :=
  existsb (Z.eqb t) [tPLUS; tMINUS; tOR; tXOR; tSYMDIFF; tBAR].
Definition is_mulop (t : Z) : bool :=
  existsb (Z.eqb t) [tMUL; tDIV; tFDIV; tMOD; tAND; tSHL; tSHR; tAMP].
Definition is_shift (t : Z) : bool := (t =? tSHL) || (t =? tSHR).

(** pas_Term :663-817 *)
Definition mul_op (operation : Z) (t1 : etype) (c : comp) : comp :=
  let choose s16 w16 sl wl :=
    if among t1 signed16s then simple_op s16 c
    else if among t1 words16s then simple_op w16 c
    else if teq t1 xLongInteger then long_op sl c
    else if teq t1 xLongWord then long_op wl c
    else error eFACTORTYPE c in
  if operation =? tMUL then choose oMUL oUMUL 0x48 0x61
  else if operation =? tDIV then choose oDIV oUDIV 0x49 0x62
  else if operation =? tFDIV then error eFACTORTYPE c
  else if operation =? tMOD then choose oMOD oUMOD 0x4a 0x63
  else if (operation =? tAMP) || (operation =? tAND) then
    if among t1 int16s || teq t1 xBoolean then simple_op oAND c
    else if among t1 longs then long_op 0x4f c else error eFACTORTYPE c
  else if operation =? tSHL then
    if among t1 int16s then simple_op oSLL c
    else if among t1 longs then long_op 0x4b c else error eFACTORTYPE c
  else choose oSRA oSRL 0x4d 0x4c.

(** pas_Factor :846-931, tINT_CONST (without the skipping); g_tknUInt is an
    uint32_t.  word[0] of uWord_t is the low-order half (little-endian host). *)
Definition int_const (find : etype) (v : Z) (c : comp) : etype * comp :=
  if among find longs then (find, data_op oPUSH (v / 65536) (data_op oPUSH (v mod 65536) c))
  else if v <=? 65535 then
    ((if (v <=? 255) && teq find xShortInteger then xShortInteger
      else if teq find xShortWord then xShortWord else xInteger),
     data_op oPUSH v c)
  else (xLongInteger, data_op oPUSH (v / 65536) (data_op oPUSH (v mod 65536) c)).

(** pas_MapVariable2ExprType :4481-4555, for the types modelled *)
Definition map_type (k : Z) : option etype :=
  if k =? sINT then Some xInteger else if k =? sWORD then Some xWord
  else if k =? sSHORTINT then Some xShortInteger else if k =? sSHORTWORD then Some xShortWord
  else if k =? sLONGINT then Some xLongInteger else if k =? sLONGWORD then Some xLongWord
  else if k =? sCHAR then Some xChar else if k =? sBOOLEAN then Some xBoolean
  else None.

(** pas_IsOrdinalExpression :3476-3496 *)
Definition is_ordinal (t : etype) : bool := negb (among t [xUnknown; xAnyOrdinal]).

(** pas_TypeCast :3383-3462, conversion of ordinal types *)
Definition convert (new old : etype) (c : comp) : comp :=
  if among new longs && negb (among old longs) then
    if among old signed16s then long_op 0x5e c else long_op 0x5f c
  else if negb (among new longs) && among old longs then long_op 0x60 c
  else c.

(** pas_Expression :3535-3653: intOpCode, wordOpCode, charOpCode = boolOpCode,
    longIntOpCode, longWordOpCode for the relational operators *)
Record relop := mkRel { intOp : Z; wordOp : Z; charOp : Z; lintOp : Z; lwordOp : Z }.
Definition relation (t : Z) : option relop :=
  if t =? tEQ then Some (mkRel oEQU oEQU oEQU 0x56 0x56)
  else if t =? tNE then Some (mkRel oNEQ oNEQ oNEQ 0x57 0x57)
  else if t =? tLT then Some (mkRel oLT oULT oNOP 0x58 0x64)
  else if t =? tLE then Some (mkRel oLTE oULTE oNOP 0x5b 0x67)
  else if t =? tGT then Some (mkRel oGT oUGT oNOP 0x5a 0x66)
  else if t =? tGE then Some (mkRel oGTE oUGTE oNOP 0x59 0x65)
  else None.

(** :3864-4060: the comparison; the result is the type of the expression *)
Definition compare (r : relop) (t1 t2 : etype) (c : comp) : etype * comp :=
  if teq t1 t2 && negb (charOp r =? oNOP) && among t1 [xChar; xBoolean]
  then (xBoolean, simple_op (charOp r) c)
  else
    let '(u1, c) :=
      if teq t1 t2 then (t1, c)
      else if teq t1 xInteger && among t2 [xShortInteger; xShortWord] then (t1, c)
      else if among t1 [xShortInteger; xShortWord] && teq t2 xInteger then (xInteger, c)
      else (t1, error eEXPRTYPE c) in
    if among u1 signed16s then (xBoolean, simple_op (intOp r) c)
    else if teq u1 xLongInteger then (xBoolean, long_op (lintOp r) c)
    else if among u1 words16s then (xBoolean, simple_op (wordOp r) c)
    else if teq u1 xLongWord then (xBoolean, long_op (lwordOp r) c)
    else (u1, c).

(** :4093-4155, is the expression of the requested type? *)
Definition check_type (find t : etype) (c : comp) : comp :=
  error_if (negb (teq find xUnknown) && negb (teq find t) &&
            negb (teq find xAnyOrdinal && is_ordinal t)) eEXPRTYPE c.

(** ** Standard functions, pas_stdfunc.c: those of ordinal numbers.  The others are
    not modelled. *)
Definition is_std (f : Z) : bool :=
  existsb (Z.eqb f) [txABS; txSQR; txPRED; txSUCC; txORD; txODD; txCHR].
(** The type asked for: pas_AbsFunc :125, pas_OrdFunc :211, pas_PredFunc :227,
    pas_SqrFunc :243, pas_SuccFunc :306, pas_OddFunc :323, pas_ChrFunc :342 *)
Definition std_find (f : Z) : etype :=
  if (f =? txABS) || (f =? txSQR) then xUnknown else if f =? txCHR then xInteger else xAnyOrdinal.
(** What follows the code of the argument.  DEC, INC and the instructions of Odd
    are written behind the check of the closing parenthesis (:228-230, :308-310,
    :324-327), which makes no difference: they report no error and read no token. *)
Definition std_code (f : Z) (ty : etype) (c : comp) : comp :=
  if f =? txABS then if teq ty xInteger then simple_op oABS c else error eINVARG c
  else if f =? txSQR then
    if among ty [xInteger; xShortInteger] then simple_op oMUL (simple_op oDUP c)
    else if among ty [xWord; xShortWord] then simple_op oUMUL (simple_op oDUP c)
    else error eINVARG c
  else if f =? txPRED then simple_op oDEC c
  else if f =? txSUCC then simple_op oINC c
  else if f =? txODD then simple_op oNEQZ (simple_op oAND (data_op oPUSH 1 c))
  else c.
(** The type of the result: pas_StandardFunction :1075-1205 *)
Definition std_type (f : Z) (ty : etype) : etype :=
  if f =? txORD then xInteger else if f =? txODD then xBoolean else if f =? txCHR then xChar else ty.

(** ** The recursive descent *)

Fixpoint expression (n : nat) (find : etype) (c : comp) {struct n} : res :=
  (* pas_Expression :3503-4158.  IN is not modelled, and neither is the second
     operand being looked for as a set. *)
  match n with
  | O => NoFuel
  | S n' =>
    bindr (simple_expression n' find c) (fun t1 c =>
    if token c =? tIN then NotModelled else
    match relation (token c) with
    | None => Done t1 (check_type find t1 c)
    | Some r =>
      bindr (simple_expression n' find (getToken c)) (fun t2 c =>
      let '(t, c) := compare r t1 t2 c in
      Done t (check_type find t c))
    end)
  end

with simple_expression (n : nat) (find : etype) (c : comp) {struct n} : res :=
  (* pas_SimpleExpression :158-512 *)
  match n with
  | O => NoFuel
  | S n' =>
    let signed := (token c =? tPLUS) || (token c =? tMINUS) in
    let minus := token c =? tMINUS in
    let c := if signed then getToken c else c in
    bindr (term n' find c) (fun t1 c =>
    let c := if minus then negate t1 c else c in
    terms n' (if teq find xUnknown then t1 else find) t1 c)
  end

with terms (n : nat) (find t1 : etype) (c : comp) {struct n} : res :=
  (* the loop :215-509; a character followed by '+' becomes a string *)
  match n with
  | O => NoFuel
  | S n' =>
    let operation := token c in
    if is_addop operation then
      if (operation =? tPLUS) && teq t1 xChar then NotModelled else
      bindr (term n' find (getToken c)) (fun t2 c =>
      let c := error_if (negb (term_mix t1 t2)) eTERMTYPE c in
      terms n' find t1 (add_op operation t1 c))
    else Done t1 c
  end

with term (n : nat) (find : etype) (c : comp) {struct n} : res :=
  (* pas_Term :517-821 *)
  match n with
  | O => NoFuel
  | S n' => bindr (factor n' find c) (fun t1 c => factors n' find t1 c)
  end

with factors (n : nat) (find t1 : etype) (c : comp) {struct n} : res :=
  (* the loop :527-818 *)
  match n with
  | O => NoFuel
  | S n' =>
    let operation := token c in
    if is_mulop operation then
      if is_shift operation then
        bindr (factor n' xAnyOrdinal (getToken c)) (fun t2 c =>
        let bad := among t2 [xLongInteger; xLongWord; xUnknown] in
        let c := error_if bad eSHIFTTYPE c in
        let t2 := if bad then xInteger else t2 in
        (* :622-625: an error is reported only for shifts *)
        let c := error_if (negb (teq t1 t2)) eFACTORTYPE c in
        factors n' find t1 (mul_op operation t1 c))
      else
        bindr (factor n' find (getToken c)) (fun t2 c =>
        factors n' find t1 (mul_op operation t1 c))
    else Done t1 c
  end

with factor (n : nat) (find : etype) (c : comp) {struct n} : res :=
  (* pas_Factor :828-1190 *)
  match n with
  | O => NoFuel
  | S n' =>
    let t := token c in
    let v := tsym (cur c) in
    if t =? tIDENT then Done xUnknown (error eUNDEFSYM c)
    else if t =? tINT_CONST then
      let '(ty, c') := int_const find (tval (cur c)) c in Done ty (getToken c')
    else if t =? tBOOLEAN_CONST then Done xBoolean (getToken (data_op oPUSH (s32 (tval (cur c))) c))
    else if t =? tCHAR_CONST then Done xChar (getToken (data_op oPUSH (s32 (tval (cur c))) c))
    else if t =? sINT then Done xInteger (getToken (stack_ref oLDS v c))
    else if t =? sWORD then Done xWord (getToken (stack_ref oLDS v c))
    else if t =? sBOOLEAN then Done xBoolean (getToken (stack_ref oLDS v c))
    else if t =? sSHORTINT then Done xShortInteger (getToken (stack_ref oLDSB v c))
    else if t =? sSHORTWORD then Done xShortWord (getToken (stack_ref oULDSB v c))
    else if t =? sCHAR then Done xChar (getToken (stack_ref oULDSB v c))
    else if t =? sLONGINT then
      Done xLongInteger (getToken (stack_ref oLDSM v (data_op oPUSH (vSize v) c)))
    else if t =? sLONGWORD then
      Done xLongWord (getToken (stack_ref oLDSM v (data_op oPUSH (vSize v) c)))
    else if t =? tLPAREN then
      bindr (expression n' xUnknown (getToken c)) (fun ty c =>
      if token c =? tRPAREN then Done ty (getToken c) else Done ty (error eRPAREN c))
    else if (t =? tTILDE) || (t =? tNOT) then
      bindr (factor n' find (getToken c)) (fun ty c =>
      let c := error_if (negb (among ty int16s || among ty longs || teq ty xBoolean)) eFACTORTYPE c in
      Done ty (if among ty longs then long_op 0x45 c else simple_op oNOT c))
    else if t =? sTYPE then
      (* pas_TypeCast :3281-3467 *)
      let c := getToken c in
      if negb (token c =? tLPAREN) then Done xUnknown (error eLPAREN c) else
      match map_type (tType v) with
      | None => NotModelled
      | Some new =>
        bindr (expression n' xUnknown (getToken c)) (fun old c =>
        let c := if token c =? tRPAREN then getToken c else error eRPAREN c in
        if teq old xUnknown then Done xUnknown c else Done new (convert new old c))
      end
    else if t =? tSTDFUNC then
      (* :1181-1183, pas_StandardFunction pas_stdfunc.c:1062-1309 *)
      let f := tsub (cur c) in
      if is_std f then
        let c := getToken c in
        let c := if token c =? tLPAREN then getToken c else error eLPAREN c in
        bindr (expression n' (std_find f) c) (fun ty c =>
        let c := std_code f ty c in
        Done (std_type f ty) (if token c =? tRPAREN then getToken c else error eRPAREN c))
      else NotModelled
    else if existsb (Z.eqb t) other_factors then NotModelled
    else Done xUnknown (error eINVFACTOR c)
  end.
