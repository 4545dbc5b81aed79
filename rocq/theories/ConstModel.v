(** Constant expressions: pascal/pas_constexpr.c and pascal/pas_constfunc.c.

    Simplified as ExprModel.v; the type looked for is neither real nor string (it
    has no effect then), and of the type symbol only tMinValue is kept (0 without
    one); tMaxValue is not used.  At the start g_constantToken is not that of a
    real number or string.
    Not modelled ([KNotModelled]): real and string constants, SizeOf. *)

From Coq Require Import ZArith Bool List.
From Verif Require Import Words State Opcodes EncodeModel Machine ExprModel StmtModel.
Import ListNotations.
Open Scope Z_scope.

(** Token codes: pascal/pas_tkndefs.h:45-260; '[' and ']' *)
Definition tSTRING_CONST := 0x06.
Definition tSET_CONST := 0x07.
Definition tSUBRANGE := 0x0b.
Definition sSTRING_CONST := 0x51.
Definition tLBRACKET := 0x5b.
Definition tRBRACKET := 0x5d.
Definition txARCTAN := 0x03.
Definition txCOS := 0x05.
Definition txEXP := 0x07.
Definition txLN := 0x08.
Definition txROUND := 0x0c.
Definition txSIN := 0x0d.
Definition txSQRT := 0x0f.
Definition txTRUNC := 0x11.
Definition txSIZEOF := 0x9b.

(** Error codes: include/pas_errcodes.h:243-316 *)
Definition eINVALIDFUNC := 0x15.
Definition eINVSIGNEDCONST := 0x19.
Definition eNOTYET := 0x2b.
Definition eRBRACKET := 0x36.
Definition eSUBRANGETYPE := 0x57.
Definition eSETELEMENT := 0x5a.

(** The compiler and g_constantToken, g_constantInt, g_constantSet :190-196 *)
Record cst := mkK { kc : comp; ktok : Z; kint : Z; kset : list Z }.
Inductive kres := KDone (s : cst) | KNoFuel | KNotModelled | KUndefined.
Definition bindk (r : kres) (k : cst -> kres) : kres := match r with KDone s => k s | _ => r end.

Definition ktoken (s : cst) : Z := token (kc s).
Definition kcur (s : cst) : tok := cur (kc s).
Definition with_comp (c : comp) (s : cst) : cst := mkK c (ktok s) (kint s) (kset s).
Definition knext (s : cst) : cst := with_comp (getToken (kc s)) s.
Definition kerror (e : Z) (s : cst) : cst := with_comp (error e (kc s)) s.
Definition kerror_if (b : bool) (e : Z) (s : cst) : cst := if b then kerror e s else s.
Definition constant (t v : Z) (s : cst) : cst := mkK (kc s) t v (kset s).
Definition with_set (l : list Z) (s : cst) : cst := mkK (kc s) (ktok s) (kint s) l.

(** int32_t: what does not fit is undefined *)
Definition int32 (z : Z) : option Z := if (-2147483648 <=? z) && (z <=? 2147483647) then Some z else None.
Definition bindi (o : option Z) (k : Z -> kres) : kres := match o with Some z => k z | None => KUndefined end.
Definition shift_ok (n : Z) : bool := (0 <=? n) && (n <=? 31).

(** isRelationalOperator :65-68, isRelationalSetOperator :70-72, isRelationalType :74-76,
    isLogicalType :84-85, isOrdinalType :87-89 *)
Definition rel_op (t : Z) : bool := existsb (Z.eqb t) [tEQ; tNE; tLT; tLE; tGT; tGE].
Definition rel_set_op (t : Z) : bool := existsb (Z.eqb t) [tEQ; tNE; tLE; tIN].
Definition rel_type (t : Z) : bool := existsb (Z.eqb t) [tINT_CONST; tCHAR_CONST; tBOOLEAN_CONST].
Definition logical_type (t : Z) : bool := existsb (Z.eqb t) [tINT_CONST; tBOOLEAN_CONST].
Definition ordinal_token (t : Z) : bool := existsb (Z.eqb t) [tINT_CONST; tCHAR_CONST; tBOOLEAN_CONST; sSCALAR_OBJECT].
Definition ordinal_constant (t : Z) : bool := existsb (Z.eqb t) [tINT_CONST; tCHAR_CONST; tBOOLEAN_CONST].
Definition pascal_boolean (b : bool) : Z := if b then -1 else 0.

(** ** Sets *)

(** g_constantSet[i] for an index known to be valid, and the assignment; None: outside
    of the array *)
Definition set_word (i : Z) (l : list Z) : Z := nth (Z.to_nat i) l 0.
Definition put_word (i v : Z) (l : list Z) : option (list Z) :=
  if i <? Z.of_nat (length l) then Some (firstn (Z.to_nat i) l ++ v :: skipn (S (Z.to_nat i)) l) else None.
(** copySet, setUnion, setDifference, setSymmetricDifference :94-170: the result is in
    the second operand *)
Definition map_words (f : Z -> Z -> Z) (src dest : list Z) : list Z := map (fun p => f (snd p) (fst p)) (combine src dest).
Definition set_union := map_words Z.lor.
Definition set_difference := map_words (fun d s => Z.land d (u16 (Z.lnot s))).
Definition set_symmetric := map_words Z.lxor.
(** equalSets, unEqualSets, containsSet *)
Definition equal_sets (a b : list Z) : bool := forallb (fun p => fst p =? snd p) (combine a b).
Definition contains_set (a b : list Z) : bool := forallb (fun p => Z.land (fst p) (snd p) =? snd p) (combine a b).

(** pas_AddBitSetElements :802-862: the loop :843-860.  The index grows, so that the
    array is left before the fuel is used up. *)
Fixpoint fill (n : nat) (tailMask tailBits : Z) (bitMask bitsInWord nBits wordIndex : Z) (l : list Z) : option (list Z) :=
  if 0 <? nBits then
    match n with
    | O => None
    | S n' =>
      match put_word wordIndex bitMask l with
      | None => None
      | Some l =>
        let nBits := nBits - bitsInWord in
        if 16 <=? nBits then fill n' tailMask tailBits 0xffff 16 nBits (wordIndex + 1) l
        else if 0 <? nBits then fill n' tailMask tailBits tailMask bitsInWord tailBits (wordIndex + 1) l
        else fill n' tailMask tailBits bitMask bitsInWord nBits (wordIndex + 1) l
      end
    end
  else Some l.
Definition add_range (first last minElement : Z) (l : list Z) : option (list Z) :=
  let firstBitNo := u16 (first - minElement) in
  let lastBitNo := u16 (last - minElement) in
  let leadMask := u16 (Z.shiftl 0xffff (firstBitNo mod 16)) in
  let tailMask := Z.shiftr 0xffff (15 - lastBitNo mod 16) in
  let wordIndex := firstBitNo / 16 in
  if wordIndex =? lastBitNo / 16 then put_word wordIndex (Z.land leadMask tailMask) l
  else fill 5 tailMask (lastBitNo mod 16 + 1) leadMask (16 - firstBitNo) (last - first + 1) wordIndex l.
(** pas_GetConstantSubSet :787-796 *)
Definition add_element (first minElement : Z) (l : list Z) : option (list Z) :=
  let bitNumber := u16 (first - minElement) in
  put_word (bitNumber / 16) (Z.lor (set_word (bitNumber / 16) l) (2 ^ (bitNumber mod 16))) l.
Definition bindl (o : option (list Z)) (s : cst) (k : cst -> kres) : kres :=
  match o with Some l => k (with_set l s) | None => KUndefined end.

(** pas_GetConstantSubSet :734-798; the elements are uint16_t.  The tokenizer does not
    set g_tknUInt for sSCALAR_OBJECT: [tval] is what it contains then. *)
Definition subset (minElement : Z) (s : cst) : kres :=
  if negb (ordinal_token (ktoken s)) then KDone (kerror eSETELEMENT s)
  else
    let setType := ktoken s in
    let first := u16 (tval (kcur s)) in
    let s := knext s in
    if ktoken s =? tSUBRANGE then
      let s := knext s in
      if negb (ktoken s =? setType) then KDone (kerror eSUBRANGETYPE s)
      else bindl (add_range first (u16 (tval (kcur s))) minElement (kset s)) s (fun s => KDone (knext s))
    else bindl (add_element first minElement (kset s)) s (fun s => KDone s).
(** pas_ConstantFactor :683-692 *)
Fixpoint subsets (n : nat) (minElement : Z) (s : cst) : kres :=
  match n with
  | O => KNoFuel
  | S n' =>
    bindk (subset minElement s) (fun s =>
    if ktoken s =? tCOMMA then subsets n' minElement (knext s) else KDone s)
  end.
(** :651-702 *)
Definition set_constructor (n : nat) (minElement : Z) (s : cst) : kres :=
  let s := knext (with_set [0; 0; 0; 0] s) in
  bindk (if ktoken s =? tRBRACKET then KDone (knext s)
         else bindk (subsets n minElement s) (fun s =>
              KDone (if ktoken s =? tRBRACKET then knext s else kerror eRBRACKET s))) (fun s =>
  KDone (constant tSET_CONST (kint s) s)).

(** ** Functions *)

(** pas_CheckLParen, pas_CheckRParen: pascal/pas_stdfunc.c:1372-1385 *)
Definition check_lparen (s : cst) : cst :=
  let s := knext s in if ktoken s =? tLPAREN then knext s else kerror eLPAREN s.
Definition check_rparen (s : cst) : cst := if ktoken s =? tRPAREN then knext s else kerror eRPAREN s.

Definition real_functions : list Z := [txSQRT; txSIN; txCOS; txARCTAN; txLN; txEXP].

(** pas_StandardFunctionOfConstant, pas_constfunc.c:266-360, and the functions :84-257.
    [arg] is pas_ConstantExpression, [n] the fuel of pas_Expression.  A real function
    leaves its argument as the value. *)
Definition constant_function (n : nat) (arg : cst -> kres) (s : cst) : kres :=
  let f := tsub (kcur s) in
  if f =? txABS then
    bindk (arg (check_lparen s)) (fun s =>
    if ktok s =? tINT_CONST then
      bindi (if kint s <? 0 then int32 (- kint s) else Some (kint s)) (fun v => KDone (check_rparen (constant (ktok s) v s)))
    else KDone (check_rparen (kerror eINVARG s)))
  else if f =? txSQR then
    bindk (arg (check_lparen s)) (fun s =>
    if ktok s =? tINT_CONST then
      bindi (int32 (kint s * kint s)) (fun v => KDone (check_rparen (constant (ktok s) v s)))
    else KDone (check_rparen (kerror eINVARG s)))
  else if (f =? txPRED) || (f =? txSUCC) then
    bindk (arg (check_lparen s)) (fun s =>
    let s := kerror_if (negb (ordinal_constant (ktok s))) eINVARG s in
    bindi (int32 (if f =? txPRED then kint s - 1 else kint s + 1)) (fun v => KDone (check_rparen (constant (ktok s) v s))))
  else if f =? txSIZEOF then KNotModelled
  else if (f =? txROUND) || (f =? txTRUNC) then KDone (kerror eNOTYET s)
  else if f =? txCHR then
    bindk (arg (check_lparen s)) (fun s =>
    KDone (check_rparen (if ktok s =? tINT_CONST then constant tCHAR_CONST (kint s) s else kerror eINVARG s)))
  else if f =? txORD then
    bindk (arg (check_lparen s)) (fun s =>
    let s := kerror_if (negb (ordinal_constant (ktok s))) eINVARG s in
    KDone (check_rparen (constant tINT_CONST (kint s) s)))
  else if f =? txODD then
    bindk (arg (check_lparen s)) (fun s =>
    let s := kerror_if (negb (ordinal_constant (ktok s))) eINVARG s in
    let s := constant (ktok s) (Z.land (kint s) 1) s in
    match expression n xAnyOrdinal (kc s) with
    | Done _ c => KDone (check_rparen (with_comp c s))
    | NoFuel => KNoFuel
    | NotModelled => KNotModelled
    end)
  else if existsb (Z.eqb f) real_functions then
    bindk (arg (check_lparen s)) (fun s =>
    KDone (check_rparen (kerror_if (negb (ktok s =? tINT_CONST)) eINVARG s)))
  else KDone (kerror eINVALIDFUNC s).

(** ** Operators *)

(** pas_ConstantTerm :484-574, the switch on the operator.  [v], [w]: the factors;
    a set is not multiplied. *)
Definition mul_constant (operator v w : Z) : option Z :=
  if operator =? tMUL then int32 (v * w)
  else if operator =? tDIV then if w =? 0 then None else int32 (Z.quot v w)
  else if operator =? tMOD then if w =? 0 then None else if (v =? -2147483648) && (w =? -1) then None else Some (Z.rem v w)
  else if operator =? tAND then Some (Z.land v w)
  else if operator =? tSHL then
    if shift_ok w && (0 <=? v) then int32 (Z.shiftl v w) else None
  else if shift_ok w then Some (Z.shiftr v w) else None.
(** Does the loop of pas_ConstantTerm go on? :402-441 *)
Definition is_mul_constant (operator factor : Z) : bool :=
  (existsb (Z.eqb operator) [tMUL; tMOD; tDIV; tSHL; tSHR] && (factor =? tINT_CONST)) ||
  ((operator =? tMUL) && (factor =? tSET_CONST)) ||
  ((operator =? tAND) && logical_type factor).
(** Does the loop of pas_ConstantSimpleExpression go on? :264-282 *)
Definition is_add_constant (operator term : Z) : bool :=
  (existsb (Z.eqb operator) [tPLUS; tMINUS] && (term =? tINT_CONST)) ||
  ((operator =? tOR) && logical_type term) ||
  (existsb (Z.eqb operator) [tPLUS; tMINUS; tSYMDIFF] && (term =? tSET_CONST)).

(** pas_ConstantExpression :943-1043, the comparison.  [a], [l]: value and set of the
    first operand *)
Definition compare_constants (operator simple1 a : Z) (l : list Z) (s : cst) : cst :=
  let put b := constant (ktok s) (pascal_boolean b) s in
  let b := kint s in
  if existsb (Z.eqb simple1) [tINT_CONST; tCHAR_CONST; tBOOLEAN_CONST] then
    if operator =? tEQ then put (a =? b) else if operator =? tNE then put (negb (a =? b))
    else if operator =? tLT then put (a <? b) else if operator =? tLE then put (a <=? b)
    else if operator =? tGT then put (b <? a) else if operator =? tGE then put (b <=? a)
    else kerror eEXPRTYPE s
  else if simple1 =? tSET_CONST then
    if operator =? tEQ then put (equal_sets l (kset s)) else if operator =? tNE then put (negb (equal_sets l (kset s)))
    else if operator =? tLE then put (contains_set l (kset s))
    else if operator =? tIN then kerror eNOTYET s else kerror eEXPRTYPE s
  else kerror eEXPRTYPE s.

(** ** The recursive descent *)

Fixpoint const_expression (n : nat) (minElement : Z) (s : cst) {struct n} : kres :=
  (* pas_ConstantExpression :871-1049: the operator is not skipped *)
  match n with
  | O => KNoFuel
  | S n' =>
    bindk (const_simple n' minElement s) (fun s =>
    if (rel_op (ktoken s) && rel_type (ktok s)) || (rel_set_op (ktoken s) && (ktok s =? tSET_CONST)) then
      let simple1 := ktok s in
      let operator := ktoken s in
      let a := kint s in
      let l := kset s in
      bindk (const_simple n' minElement s) (fun s =>
      let s := kerror_if (negb (simple1 =? ktok s)) eEXPRTYPE s in
      let s := compare_constants operator simple1 a l s in
      KDone (constant tBOOLEAN_CONST (kint s) s))
    else KDone s)
  end

with const_simple (n : nat) (minElement : Z) (s : cst) {struct n} : kres :=
  (* pas_ConstantSimpleExpression :205-380; after eINVSIGNEDCONST termInt is not
     initialised *)
  match n with
  | O => KNoFuel
  | S n' =>
    let signed := (ktoken s =? tPLUS) || (ktoken s =? tMINUS) in
    let minus := ktoken s =? tMINUS in
    let s := if signed then knext s else s in
    bindk (const_term n' minElement s) (fun s =>
    if signed && negb (ktok s =? tINT_CONST) then KUndefined
    else bindi (if minus then int32 (- kint s) else Some (kint s)) (fun v =>
    const_terms n' minElement (ktok s) v (kset s) s))
  end

with const_terms (n : nat) (minElement term v : Z) (l : list Z) (s : cst) {struct n} : kres :=
  (* the loop :260-375; [term], [v], [l]: term, termInt, termSet *)
  match n with
  | O => KNoFuel
  | S n' =>
    let operator := ktoken s in
    if is_add_constant operator term then
      bindk (const_term n' minElement (knext s)) (fun s =>
      let s := kerror_if (negb (term =? ktok s)) eTERMTYPE s in
      if term =? tINT_CONST then
        bindi (int32 (if operator =? tPLUS then v + kint s else v - kint s)) (fun v => const_terms n' minElement term v l s)
      else if term =? tBOOLEAN_CONST then const_terms n' minElement term (Z.lor v (kint s)) l s
      else
        let op := if operator =? tPLUS then set_union else if operator =? tMINUS then set_difference else set_symmetric in
        const_terms n' minElement term v l (with_set (op l (kset s)) s))
    else KDone (constant term v s)
  end

with const_term (n : nat) (minElement : Z) (s : cst) {struct n} : kres :=
  (* pas_ConstantTerm :385-576 *)
  match n with
  | O => KNoFuel
  | S n' => bindk (const_factor n' minElement s) (fun s => const_factors n' minElement (ktok s) (kint s) s)
  end

with const_factors (n : nat) (minElement factor v : Z) (s : cst) {struct n} : kres :=
  (* the loop :400-575 *)
  match n with
  | O => KNoFuel
  | S n' =>
    let operator := ktoken s in
    if is_mul_constant operator factor then
      bindk (const_factor n' minElement (knext s)) (fun s =>
      let s := kerror_if (negb (factor =? ktok s)) eFACTORTYPE s in
      if factor =? tSET_CONST then const_factors n' minElement factor v (kerror eFACTORTYPE s)
      else bindi (mul_constant operator v (kint s)) (fun v => const_factors n' minElement factor v s))
    else KDone (constant factor v s)
  end

with const_factor (n : nat) (minElement : Z) (s : cst) {struct n} : kres :=
  (* pas_ConstantFactor :581-730 *)
  match n with
  | O => KNoFuel
  | S n' =>
    let t := ktoken s in
    if existsb (Z.eqb t) [tCHAR_CONST; tINT_CONST; tBOOLEAN_CONST] then
      KDone (knext (constant t (s32 (tval (kcur s))) s))
    else if existsb (Z.eqb t) [tREAL_CONST; tSTRING_CONST; sSTRING_CONST] then KNotModelled
    else if t =? tLBRACKET then set_constructor n' minElement s
    else if t =? tNOT then
      bindk (const_factor n' minElement (knext s)) (fun s =>
      let s := kerror_if (negb (logical_type (ktok s))) eFACTORTYPE s in
      KDone (constant (ktok s) (Z.lnot (kint s)) s))
    else if t =? tSTDFUNC then constant_function n' (const_expression n' 0) s
    else KDone (kerror eINVFACTOR s)
  end.
