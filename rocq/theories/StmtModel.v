(** The statement compiler: pascal/pas_statement.c, with pas_StandardProcedure of
    pascal/pas_procedure.c.

    Simplified as ExprModel.v; besides, there is one source file (number 0).
    Not modelled ([SNotModelled]): GOTO and labels, WITH, procedure statements,
    standard procedures other than Break and Continue, variables of other types
    than the integer, long, character and Boolean ones, constant functions as
    case constants. *)

From Coq Require Import ZArith Bool List.
From Verif Require Import Words State Opcodes Machine EncodeModel ExprModel.
Import ListNotations.
Open Scope Z_scope.

(** ** Token codes: pascal/pas_tkndefs.h:45-260 *)
Definition tASSIGN := 0x0a.
Definition tCOMMA := 0x2c.
Definition tCOLON := 0x3a.
Definition tSEMICOLON := 0x3b.
Definition tBEGIN := 0x82.
Definition tCASE := 0x83.
Definition tDO := 0x86.
Definition tDOWNTO := 0x87.
Definition tELSE := 0x88.
Definition tEND := 0x89.
Definition tFOR := 0x8c.
Definition tGOTO := 0x8e.
Definition tIF := 0x8f.
Definition tOF := 0x98.
Definition tREPEAT := 0x9f.
Definition tTHEN := 0xa3.
Definition tTO := 0xa4.
Definition tUNTIL := 0xa7.
Definition tWHILE := 0xb0.
Definition tWITH := 0xb1.
Definition tSTDPROC := 0xc1.
Definition txBREAK := 0x9c.
Definition txCONTINUE := 0xa0.
Definition sPROC := 0x41.
Definition sSCALAR := 0x53.
Definition sSCALAR_OBJECT := 0x54.
Definition sSUBRANGE := 0x55.
Definition tREAL_CONST := 0x05.

(** Tokens at which pas_Statement branches to code that is not modelled: sSET,
    sREAL, sSCALAR, sSTRING, sSUBRANGE, sRECORD, sRECORD_OBJECT, sPOINTER,
    sVAR_PARM, sARRAY, sPROC, tGOTO, tINT_CONST, tWITH *)
Definition other_statements : list Z :=
  [0x56; 0x4f; 0x53; 0x50; 0x55; 0x58; 0x59; 0x52; 0x5a; 0x57; 0x41; 0x8e; 0x02; 0xb1].

(** Error codes: include/pas_errcodes.h:222-291 *)
Definition eASSIGN := 0x01.
Definition eCOLON := 0x03.
Definition eDO := 0x06.
Definition eEND := 0x09.
Definition eINTCONST := 0x11.
Definition eINTVAR := 0x14.
Definition eOF := 0x2d.
Definition eNOTINLOOP := 0x2e.
Definition eTHEN := 0x3c.
Definition eTOorDOWNTO := 0x3d.
Definition eUNTIL := 0x42.

(** SUndefined: undefined behaviour of the compiler *)
Inductive sres := SDone (c : comp) | SNoFuel | SNotModelled | SUndefined.
Definition binds (r : sres) (k : comp -> sres) : sres :=
  match r with SDone c => k c | _ => r end.
(** The type of an expression is not used by statements. *)
Definition binde (r : res) (k : comp -> sres) : sres :=
  match r with Done _ c => k c | NoFuel => SNoFuel | NotModelled => SNotModelled end.

Definition with_label (l : Z) (c : comp) : comp :=
  mkComp (toks c) (out c) (errs c) l (g_level c) (g_continue c) (g_break c) (g_adjust c).
Definition with_loop (cont brk adj : Z) (c : comp) : comp :=
  mkComp (toks c) (out c) (errs c) (g_label c) (g_level c) cont brk adj.
(** ++g_label; uint16_t *)
Definition new_label (c : comp) : Z := u16 (g_label c + 1).
Definition count (c : comp) : comp := with_label (new_label c) c.

(** if (g_token != k) error(e); else getToken(); *)
Definition expect (k e : Z) (c : comp) : comp := if token c =? k then getToken c else error e c.

(** pas_ContinueBreak :1346-1361; g_stackAdjust is an int16_t *)
Definition continue_break (label : Z) (c : comp) : comp :=
  if label =? 0 then error eNOTINLOOP c
  else
    let c := if g_adjust c =? 0 then c else data_op oINDS (g_adjust c) c in
    data_op oJMP label c.

Definition is_word_var (t : Z) : bool := (t =? sINT) || (t =? sWORD) || (t =? sBOOLEAN).
Definition is_byte_var (t : Z) : bool := (t =? sSHORTINT) || (t =? sSHORTWORD) || (t =? sCHAR).
Definition is_long_var (t : Z) : bool := (t =? sLONGINT) || (t =? sLONGWORD).
(** pas_MapVariable2ExprType *)
Definition var_type (t : Z) : etype := match map_type t with Some e => e | None => xUnknown end.

(** pas_Assignment :1040-1051, with the fuel of the expression *)
Definition assignment (n : nat) (storeOp : Z) (ty : etype) (v : sym) (c : comp) : sres :=
  binde (expression n ty (expect tASSIGN eASSIGN c)) (fun c =>
  SDone (stack_ref storeOp v c)).
(** pas_LargeAssignment :1283-1294 *)
Definition large_assignment (n : nat) (ty : etype) (v : sym) (c : comp) : sres :=
  binde (expression n ty (expect tASSIGN eASSIGN c)) (fun c =>
  SDone (stack_ref oSTSM v (data_op oPUSH (vSize v) c))).

(** IS_CONSTANT :159-164 *)
Definition is_constant (t : Z) : bool :=
  existsb (Z.eqb t) [tINT_CONST; tBOOLEAN_CONST; tCHAR_CONST; tREAL_CONST; sSCALAR_OBJECT].

(** The loop over the constants of one case :1779-1859 *)
Fixpoint case_constants (n : nat) (statement_label next_label : Z) (c : comp) : sres :=
  match n with
  | O => SNoFuel
  | S n' =>
    let c := simple_op oDUP c in
    let v := tval (cur c) in
    if is_constant (token c) then
      let c := error_if (65535 <? v) eINTOVF c in
      let c := getToken (data_op oPUSH (if 65535 <? v then 65535 else v) c) in
      if token c =? tCOMMA then case_constants n' statement_label next_label (getToken (data_op oJEQU statement_label c))
      else SDone (data_op oJNEQ next_label c)
    else if token c =? tSTDFUNC then SNotModelled
    else SDone (error eINTCONST c)
  end.

(** The functions below are given the functions they call recursively:
    [stmt] pas_Statement, [seq] and [more] the loops below.  [n] is the fuel of
    expressions. *)

(** pas_IfStatement :1510-1583 *)
Definition if_statement (n : nat) (stmt : comp -> sres) (c : comp) : sres :=
  let elseLabel := new_label c in
  binde (expression n xBoolean (getToken (count c))) (fun c =>
  if negb (token c =? tTHEN) then SDone (error eTHEN c) else
  binds (stmt (data_op oJEQUZ elseLabel (getToken c))) (fun c =>
  if token c =? tELSE then
    let endIfLabel := new_label c in
    let c := getToken (count c) in
    let c := data_op oLABEL elseLabel (data_op oJMP endIfLabel c) in
    binds (stmt c) (fun c => SDone (data_op oLABEL endIfLabel c))
  else SDone (data_op oLABEL elseLabel c))).

(** pas_RepeatStatement :1587-1641 *)
Definition repeat_statement (n : nat) (seq : comp -> sres) (c : comp) : sres :=
  let repeatLabel := new_label c in
  let c := count c in
  let endRepeatLabel := new_label c in
  let c := count c in
  let '(sc, sb, sa) := (g_continue c, g_break c, g_adjust c) in
  let c := data_op oLABEL repeatLabel (with_loop repeatLabel endRepeatLabel 0 c) in
  binds (seq c) (fun c =>
  binde (expression n xBoolean (expect tUNTIL eUNTIL c)) (fun c =>
  SDone (with_loop sc sb sa (data_op oLABEL endRepeatLabel (data_op oJEQUZ repeatLabel c))))).

(** pas_WhileStatement :1644-1699 *)
Definition while_statement (n : nat) (stmt : comp -> sres) (c : comp) : sres :=
  let whileLabel := new_label c in
  let c := count c in
  let endWhileLabel := new_label c in
  let c := count c in
  let '(sc, sb, sa) := (g_continue c, g_break c, g_adjust c) in
  let c := getToken (with_loop whileLabel endWhileLabel 0 c) in
  binde (expression n xBoolean (data_op oLABEL whileLabel c)) (fun c =>
  let c := expect tDO eDO (data_op oJEQUZ endWhileLabel c) in
  binds (stmt c) (fun c =>
  SDone (with_loop sc sb sa (data_op oLABEL endWhileLabel (data_op oJMP whileLabel c))))).

(** pas_CaseStatement :1702-1918; [more] is the loop :1730-1909 *)
Definition case_statement (n : nat) (more : Z -> Z -> comp -> sres) (c : comp) : sres :=
  let nextCaseLabel := new_label c in
  let c := count c in
  let endCaseLabel := new_label c in
  binde (expression n xAnyOrdinal (getToken (count c))) (fun c =>
  let c := expect tOF eOF c in
  let c := with_loop (g_continue c) (g_break c) (s16 (g_adjust c - 2)) c in
  binds (more nextCaseLabel endCaseLabel c) (fun c =>
  let c := data_op oINDS (-2) (data_op oLABEL endCaseLabel c) in
  SDone (with_loop (g_continue c) (g_break c) (s16 (g_adjust c + 2)) c))).

(** pas_ForStatement :1922-2054 *)
Definition for_statement (n : nat) (stmt : comp -> sres) (c : comp) : sres :=
  let forLabel := new_label c in
  let c := count c in
  let endForLabel := new_label c in
  let c := count c in
  let continueLabel := new_label c in
  let c := count c in
  let '(sc, sb, sa) := (g_continue c, g_break c, g_adjust c) in
  let c := getToken (with_loop continueLabel endForLabel 0 c) in
  let t := token c in
  let v := tsym (cur c) in
  if (t =? sSUBRANGE) || (t =? sSCALAR) then SNotModelled
  else if negb ((t =? sINT) || (t =? sWORD) || (t =? sSHORTINT) || (t =? sSHORTWORD) || is_long_var t)
  then SDone (with_loop sc sb sa (error eINTVAR c))
  else
    let ty := var_type t in
    binds (assignment n oSTS ty v (getToken c)) (fun c =>
    (* :1987-2003: otherwise jmpOp and modOp are not initialised *)
    if negb ((token c =? tDOWNTO) || (token c =? tTO)) then SUndefined else
    let down := token c =? tDOWNTO in
    binde (expression n ty (getToken c)) (fun c =>
    let c := expect tDO eDO c in
    let c := stack_ref oLDS v (simple_op oDUP (data_op oLABEL forLabel c)) in
    let c := data_op (if down then oJGT else oJLT) endForLabel c in
    binds (stmt c) (fun c =>
    let c := stack_ref oLDS v (data_op oLABEL continueLabel c) in
    let c := stack_ref oSTS v (simple_op (if down then oDEC else oINC) c) in
    let c := data_op oLABEL endForLabel (data_op oJMP forLabel c) in
    SDone (with_loop sc sb sa (data_op oINDS (-2) c))))).

(** One round of the loop of pas_CaseStatement :1730-1909 *)
Definition one_case (n : nat) (stmt : comp -> sres) (more : Z -> Z -> comp -> sres)
  (thisCaseLabel endCaseLabel : Z) (c : comp) : sres :=
  let nextCaseLabel := new_label c in
  let c := count c in
  if token c =? tELSE then
    binds (stmt (data_op oLABEL thisCaseLabel (getToken c))) (fun c =>
    let c := if token c =? tSEMICOLON then getToken c else c in
    SDone (expect tEND eEND c))
  else
    let statement_label := new_label c in
    let c := data_op oLABEL thisCaseLabel (count c) in
    binds (case_constants n statement_label nextCaseLabel c) (fun c =>
    let c := data_op oLABEL statement_label (expect tCOLON eCOLON c) in
    binds (stmt c) (fun c =>
    let c := data_op oJMP endCaseLabel c in
    if negb (token c =? tSEMICOLON) && negb (token c =? tEND) then SDone (error eEND c)
    else
      let c := if token c =? tSEMICOLON then getToken c else c in
      if token c =? tEND then SDone (getToken (data_op oLABEL nextCaseLabel c))
      else more nextCaseLabel endCaseLabel c)).

(** pas_StandardProcedure, pas_procedure.c:2365-2455 *)
Definition standard_procedure (c : comp) : sres :=
  if token c =? tSTDPROC then
    if tsub (cur c) =? txBREAK then let c := getToken c in SDone (continue_break (g_break c) c)
    else if tsub (cur c) =? txCONTINUE then let c := getToken c in SDone (continue_break (g_continue c) c)
    else SNotModelled
  else SDone c.

(** pas_Statement :2211-2316; pas_CompoundStatement :2318-2333 *)
Definition any_statement (n : nat) (stmt seq : comp -> sres) (more : Z -> Z -> comp -> sres) (c : comp) : sres :=
  let c := emit oLINE 0 (tline (cur c)) c in
  let t := token c in
  let v := tsym (cur c) in
  if is_word_var t then assignment n oSTS (var_type t) v (getToken c)
  else if is_byte_var t then assignment n oSTSB (var_type t) v (getToken c)
  else if is_long_var t then large_assignment n (var_type t) v (getToken c)
  else if t =? tIF then if_statement n stmt c
  else if t =? tCASE then case_statement n more c
  else if t =? tREPEAT then repeat_statement n seq c
  else if t =? tWHILE then while_statement n stmt c
  else if t =? tFOR then for_statement n stmt c
  else if t =? tBEGIN then binds (seq c) (fun c => SDone (expect tEND eEND c))
  else if existsb (Z.eqb t) other_statements then SNotModelled
  else standard_procedure c.

Fixpoint statement (n : nat) (c : comp) {struct n} : sres :=
  match n with O => SNoFuel | S n' => any_statement n' (statement n') (statements n') (cases n') c end
with statements (n : nat) (c : comp) {struct n} : sres :=
  (* do { getToken(); pas_Statement(); } while (g_token == ';'): :1612-1620, :2322-2327 *)
  match n with
  | O => SNoFuel
  | S n' =>
    binds (statement n' (getToken c)) (fun c =>
    if token c =? tSEMICOLON then statements n' c else SDone c)
  end
with cases (n : nat) (thisCaseLabel endCaseLabel : Z) (c : comp) {struct n} : sres :=
  match n with O => SNoFuel | S n' => one_case n' (statement n') (cases n') thisCaseLabel endCaseLabel c end.
