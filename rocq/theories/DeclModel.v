(** Type definitions, variable declarations and formal parameters:
    pascal/pas_block.c, with the functions of pascal/pas_symtable.c,
    pascal/pas_token.c and pascal/pas_expression.c it calls.

    Simplified: the characters are already cut into words ([raw]); a name is a
    number standing for all its spellings; -1 is the null pointer where a name
    is expected, 0 the empty string.  Of a symbol only what these functions read
    or write is kept.  The symbol table never fills up and malloc never fails;
    error() records the code and returns.  Not modelled ([NotModelled]): the
    length of a short string and initial values (both are constant expressions,
    ConstModel.v), and names of variables, files, procedures and labels where a
    type is expected.  The lists of initializers, and the import and export of
    variables by units, are left out: they do not change storage. *)

From Coq Require Import ZArith Bool List.
From Verif Require Import Words ExprModel.
Import ListNotations.
Open Scope Z_scope.

(** ** Token codes: pascal/pas_tkndefs.h:44-172 *)
Definition tREAL_CONST := 0x05.
Definition tSUBRANGE := 0x0b.
Definition tCOMMA := 0x2c.
Definition tCOLON := 0x3a.
Definition tSEMI := 0x3b.
Definition tLBRACK := 0x5b.
Definition tRBRACK := 0x5d.
Definition tCARET := 0x5e.
Definition sFILE := 0x45.
Definition sTEXTFILE := 0x46.
Definition sSTRING := 0x50.
Definition sPOINTER := 0x52.
Definition sSCALAR := 0x53.
Definition sSCALAR_OBJECT := 0x54.
Definition sSUBRANGE := 0x55.
Definition sSET := 0x56.
Definition sARRAY := 0x57.
Definition sRECORD := 0x58.
Definition sRECORD_OBJECT := 0x59.
Definition sVAR_PARM := 0x5a.
Definition tARRAY := 0x81.
Definition tCASE := 0x83.
Definition tEND := 0x89.
Definition tFILE := 0x8a.
Definition tOF := 0x98.
Definition tPACKED := 0x9b.
Definition tRECORD := 0x9e.
Definition tSET := 0xa0.
Definition tTYPE := 0xa5.
Definition tVAR := 0xa9.

(** ** Error codes: include/pas_errcodes.h:224-320 *)
Definition eCOLON := 0x03.
Definition eEQ := 0x0a.
Definition eHUH := 0x0d.
Definition eIDENT := 0x0e.
Definition eINTCONST := 0x11.
Definition eINVCONST := 0x18.
Definition eINVTYPE := 0x1f.
Definition eLBRACKET := 0x27.
Definition eNOTYET := 0x2b.
Definition eOF := 0x2d.
Definition eRBRACKET := 0x36.
Definition eINDEXTYPE := 0x50.
Definition eSUBRANGE := 0x56.
Definition eSUBRANGETYPE := 0x57.
Definition eSET := 0x58.
Definition eSETRANGE := 0x59.
Definition eRECORDDECLARE := 0x5e.

(** ** Sizes: include/pas_machine.h:63-149 *)
Definition sINT_SIZE := 2.
Definition sCHAR_SIZE := 1.
Definition sBOOLEAN_SIZE := 2.
Definition sPTR_SIZE := 2.
Definition sSET_SIZE := 8.
Definition sSET_MAXELEM := 64.
Definition MAXINT := 32767.
Definition MAXCHAR := 255.
Definition INT_ALIGNUP (n : Z) : Z := (n + 1) / 2 * 2.
Definition INT_ALIGNDOWN (n : Z) : Z := n / 2 * 2.
Definition INT_ISALIGNED (n : Z) : bool := n mod 2 =? 0.

(** Conversions to uint32_t, int32_t and uint8_t *)
Definition u32 (x : Z) : Z := x mod 4294967296.
Definition s32 (x : Z) : Z := let r := u32 x in if r <? 2147483648 then r else r - 4294967296.
Definition u8 (x : Z) : Z := x mod 256.
(** Signed arithmetic leaves int32_t *)
Definition out32 (x : Z) : bool := (x <? -2147483648) || (2147483647 <? x).

(** ** The symbol table: pascal/pas_defns.h:131-245.  A pointer is an index. *)

(** symType_t, without tFlags *)
Record tyrec := mkTy
  { tType : Z; tSub : Z; tDim : Z; tSize : Z; tMin : Z; tMax : Z;
    tPar : option nat; tIdx : option nat }.
(** symRecord_t *)
Record fldrec := mkFld
  { rSize : Z; rOff : Z; rRec : nat; rPar : option nat; rNext : option nat }.
(** symVar_t, without vFlags, vXfrUnit and vSymIndex *)
Record varrec := mkVar { vOff : Z; vSize : Z; vPar : option nat }.

(** The union sParm *)
Inductive parm :=
| PType (t : tyrec)
| PConst (v : Z) (par : option nat)
| PField (f : fldrec)
| PVar (v : varrec)
| POther.

Record sym := mkS { sName : Z; sKind : Z; sParm : parm }.

(** ** Words.  [RK]: a reserved word or special symbol, by its token code;
    an integer; a character literal; any other identifier *)
Inductive raw := RK (c : Z) | RInt (v : Z) | RChr (v : Z) | RId (n : Z).

(** An element of g_forwardRefs, pascal/pas_block.c:84-96: typePtr, typeName,
    refName, symStart *)
Record fref := mkFref { fPtr : nat; fType : Z; fRef : Z; fStart : nat }.

(** g_token, g_tknPtr, g_tokenString, g_tknUInt, the unread words, the symbol
    table, g_levelSymOffset, g_dStack, g_dwVarSize, g_nParms, g_forwardRefs,
    the errors *)
Record ds := mkD
  { gTok : Z; gPtr : option nat; gStr : Z; gUInt : Z; rest : list raw;
    syms : list sym; gLevel : nat; gStack : Z; gVarSize : Z; gParms : Z;
    fwd : list fref; derrs : list Z }.

(** The outcome of a function: [UB] a null pointer is followed, a union read as
    what it is not, or int32_t overflows; [Hang] it never returns; [NoFuel] is
    the model's *)
Inductive out (A : Type) := Done (a : A) (d : ds) | UB | Hang | NotModelled | NoFuel.
Arguments Done {A} a d. Arguments UB {A}. Arguments Hang {A}.
Arguments NotModelled {A}. Arguments NoFuel {A}.

Definition M (A : Type) : Type := ds -> out A.
Definition ret {A} (a : A) : M A := fun d => Done a d.
Definition bind {A B} (m : M A) (k : A -> M B) : M B :=
  fun d => match m d with
           | Done a d' => k a d' | UB => UB | Hang => Hang
           | NotModelled => NotModelled | NoFuel => NoFuel
           end.
Notation "x <- m ;; k" := (bind m (fun x => k)) (at level 61, m at next level, right associativity).
Notation "m ;; k" := (bind m (fun _ => k)) (at level 61, right associativity).
Definition ub {A} : M A := fun _ => UB.
Definition hang {A} : M A := fun _ => Hang.
Definition not_modelled {A} : M A := fun _ => NotModelled.
Definition no_fuel {A} : M A := fun _ => NoFuel.

Definition set_syms (l : list sym) (d : ds) : ds :=
  mkD (gTok d) (gPtr d) (gStr d) (gUInt d) (rest d) l (gLevel d) (gStack d) (gVarSize d)
      (gParms d) (fwd d) (derrs d).
Definition set_fwd (l : list fref) (d : ds) : ds :=
  mkD (gTok d) (gPtr d) (gStr d) (gUInt d) (rest d) (syms d) (gLevel d) (gStack d) (gVarSize d)
      (gParms d) l (derrs d).

Definition token : M Z := fun d => Done (gTok d) d.
Definition tkn_ptr : M (option nat) := fun d => Done (gPtr d) d.
Definition tkn_str : M Z := fun d => Done (gStr d) d.
Definition tkn_uint : M Z := fun d => Done (gUInt d) d.
Definition var_size : M Z := fun d => Done (gVarSize d) d.
Definition dstack : M Z := fun d => Done (gStack d) d.
Definition nparms : M Z := fun d => Done (gParms d) d.
(** g_nSym *)
Definition nsym : M nat := fun d => Done (List.length (syms d)) d.

(** g_dwVarSize = n, an int32_t *)
Definition set_var_size (n : Z) : M unit := fun d =>
  Done tt (mkD (gTok d) (gPtr d) (gStr d) (gUInt d) (rest d) (syms d) (gLevel d) (gStack d) (s32 n)
               (gParms d) (fwd d) (derrs d)).
(** g_dStack = n, an int32_t *)
Definition set_dstack (n : Z) : M unit := fun d =>
  Done tt (mkD (gTok d) (gPtr d) (gStr d) (gUInt d) (rest d) (syms d) (gLevel d) n (gVarSize d)
               (gParms d) (fwd d) (derrs d)).
(** g_nParms = n *)
Definition set_nparms (n : Z) : M unit := fun d =>
  Done tt (mkD (gTok d) (gPtr d) (gStr d) (gUInt d) (rest d) (syms d) (gLevel d) (gStack d)
               (gVarSize d) n (fwd d) (derrs d)).
(** error(e) *)
Definition error (e : Z) : M unit := fun d =>
  Done tt (mkD (gTok d) (gPtr d) (gStr d) (gUInt d) (rest d) (syms d) (gLevel d) (gStack d)
               (gVarSize d) (gParms d) (fwd d) (derrs d ++ [e])).

(** pas_FindSymbol and pas_FindNextSymbol, pascal/pas_symtable.c:311-347, as
    pas_SymbolToken calls them with findRecObj false, pascal/pas_token.c:104-157:
    the last symbol of this name from [start] on that is not a record object *)
Fixpoint find_sym (n : Z) (start k : nat) (l : list sym) (acc : option nat) : option nat :=
  match l with
  | [] => acc
  | s :: r =>
    find_sym n start (S k) r
      (if (start <=? k)%nat && (sName s =? n) && negb (sKind s =? sRECORD_OBJECT)
       then Some k else acc)
  end.

(** pas_FindSymbol itself, pascal/pas_symtable.c:343-347: record objects count *)
Fixpoint find_any (n : Z) (start k : nat) (l : list sym) (acc : option nat) : option nat :=
  match l with
  | [] => acc
  | s :: r => find_any n start (S k) r (if (start <=? k)%nat && (sName s =? n) then Some k else acc)
  end.

(** getToken() with g_symStart = [start], pascal/pas_token.c:824-1073.  The value
    of a symbol is kept only for constants: nothing modelled here reads the
    others. *)
Definition next_from (start : nat) (d : ds) : ds :=
  let put t p s u r :=
    mkD t p s u r (syms d) (gLevel d) (gStack d) (gVarSize d) (gParms d) (fwd d) (derrs d) in
  match rest d with
  | [] => put 0 None 0 (gUInt d) []
  | RK c :: r => put c None 0 (gUInt d) r
  | RInt v :: r => put tINT_CONST None 0 v r
  | RChr v :: r => put tCHAR_CONST None 0 v r
  | RId n :: r =>
    match find_sym n start 0 (syms d) None with
    | None => put tIDENT None n (gUInt d) r
    | Some p =>
      match nth_error (syms d) p with
      | Some s => put (sKind s) (Some p) n
                      (match sParm s with PConst v _ => u32 v | _ => gUInt d end) r
      | None => put tIDENT None n (gUInt d) r
      end
    end
  end.
Definition getToken : M unit := fun d => Done tt (next_from 0 d).
(** getLevelToken(), pascal/pas_token.c:1077-1084 *)
Definition getLevelToken : M unit := fun d => Done tt (next_from (gLevel d) d).

(** if (g_token != t) error(e); else getToken(); *)
Definition expect (t e : Z) : M unit := x <- token;; if x =? t then getToken else error e.

(** ** Symbols *)

(** pas_AddSymbol, pascal/pas_symtable.c:351-374 *)
Definition add_sym (s : sym) : M nat := fun d =>
  Done (List.length (syms d)) (set_syms (syms d ++ [s]) d).
(** pas_AddTypeDefine, pascal/pas_symtable.c:378-406: the size is a uint16_t *)
Definition add_type (name ty size : Z) (par : option nat) : M nat :=
  add_sym (mkS name sTYPE (PType (mkTy ty 0 0 (u16 size) 0 0 par None))).
(** pas_AddConstant, pascal/pas_symtable.c:410-440 *)
Definition add_const (name kind v : Z) (par : option nat) : M nat :=
  add_sym (mkS name kind (PConst v par)).
(** pas_AddVariable, pascal/pas_symtable.c:535-557: offset and size are uint16_t *)
Definition add_variable (name kind off size : Z) (par : option nat) : M nat :=
  add_sym (mkS name kind (PVar (mkVar (u16 off) (u16 size) par))).
(** pas_AddFile, pascal/pas_symtable.c:464-485 *)
Definition add_file (name kind off : Z) (par : option nat) : M nat :=
  add_sym (mkS name kind (PVar (mkVar (u16 off) sINT_SIZE par))).

Definition get_sym (p : nat) : M sym := fun d =>
  match nth_error (syms d) p with Some s => Done s d | None => UB end.
Definition upd (p : nat) (f : sym -> sym) : M unit := fun d =>
  Done tt (set_syms (firstn p (syms d) ++
                     match skipn p (syms d) with [] => [] | s :: r => f s :: r end) d).
(** ->sParm.t of a type *)
Definition get_type (p : nat) : M tyrec :=
  s <- get_sym p;; match sParm s with PType t => ret t | _ => ub end.
(** ->sParm.t of any symbol a type is asked of: an integer constant read as a
    type is its low byte (the table is cleared, and the machine is
    little-endian) *)
Definition as_type (p : nat) : M tyrec :=
  s <- get_sym p;;
  match sParm s with
  | PType t => ret t
  | PConst v _ => ret (mkTy (u8 v) (u8 (v / 256)) (u8 (v / 16777216)) 0 0 0 None None)
  | _ => not_modelled
  end.
Definition get_field (p : nat) : M fldrec :=
  s <- get_sym p;; match sParm s with PField f => ret f | _ => ub end.
Definition upd_type (p : nat) (f : tyrec -> tyrec) : M unit :=
  upd p (fun s => match sParm s with PType t => mkS (sName s) (sKind s) (PType (f t)) | _ => s end).
Definition upd_field (p : nat) (f : fldrec -> fldrec) : M unit :=
  upd p (fun s => match sParm s with PField x => mkS (sName s) (sKind s) (PField (f x)) | _ => s end).

Definition set_sub v t := mkTy (tType t) v (tDim t) (tSize t) (tMin t) (tMax t) (tPar t) (tIdx t).
Definition set_dim v t := mkTy (tType t) (tSub t) v (tSize t) (tMin t) (tMax t) (tPar t) (tIdx t).
Definition set_size v t := mkTy (tType t) (tSub t) (tDim t) v (tMin t) (tMax t) (tPar t) (tIdx t).
Definition set_min v t := mkTy (tType t) (tSub t) (tDim t) (tSize t) v (tMax t) (tPar t) (tIdx t).
Definition set_max v t := mkTy (tType t) (tSub t) (tDim t) (tSize t) (tMin t) v (tPar t) (tIdx t).
Definition set_par v t := mkTy (tType t) (tSub t) (tDim t) (tSize t) (tMin t) (tMax t) v (tIdx t).
Definition set_idx v t := mkTy (tType t) (tSub t) (tDim t) (tSize t) (tMin t) (tMax t) (tPar t) v.

(** pas_AddField, pascal/pas_symtable.c:581-605 *)
Definition add_field (name : Z) (rp : nat) (last : option nat) : M nat :=
  p <- add_sym (mkS name sRECORD_OBJECT (PField (mkFld 0 0 rp None None)));;
  match last with
  | None => ret p
  | Some q =>
    upd_field q (fun f => mkFld (rSize f) (rOff f) (rRec f) (rPar f) (Some p));;
    ret p
  end.

(** pas_GetBaseTypePointer, pascal/pas_expression.c:4575-4599.  [n] steps lead
    from a symbol to any other; after more than there are symbols the parents
    go around in a circle. *)
Fixpoint base_loop (n : nat) (b : nat) : M nat :=
  t <- as_type b;;
  match tPar t with
  | None => ret b
  | Some q =>
    s <- get_sym q;;
    if (sKind s =? sTYPE) && negb (tType t =? sSET) then
      match n with O => hang | S n' => base_loop n' q end
    else ret b
  end.
Definition base_type (p : nat) : M nat := n <- nsym;; base_loop n p.

(** pas_IntAlignRequired, pascal/pas_block.c:2902-2931.  A null pointer requires
    alignment; the kind of a type is sTYPE, never sARRAY. *)
Definition int_align_required (tp : option nat) : M bool :=
  match tp with
  | None => ret true
  | Some p =>
    t <- as_type p;;
    if tSize t =? 1 then ret false
    else
      s <- get_sym p;;
      if sKind s =? sARRAY then
        b <- base_type p;; bt <- as_type b;; ret (negb (tSize bt =? 1))
      else ret true
  end.

(** ** Types *)

(** pas_TypeIdentifier, pascal/pas_block.c:815-845, and pas_CheckShortString,
    :852-908, as far as there is no length *)
Definition type_identifier : M (option nat) :=
  t <- token;;
  if t =? sTYPE then
    p <- tkn_ptr;;
    match p with
    | None => ub
    | Some p =>
      getToken;;
      ty <- get_type p;;
      set_var_size (tSize ty);;
      if tType ty =? sSTRING then
        x <- token;; if x =? tLBRACK then not_modelled else ret (Some p)
      else ret (Some p)
    end
  else ret None.

(** An integer literal of a subrange as int16_t value, pascal/pas_block.c:1013-1024 *)
Definition subrange_value : M Z :=
  v <- tkn_uint;;
  if 65535 <? v then error eINTOVF;; ret 32767 else ret (s16 v).

(** [sign] literal.  [None]: value is left as it was. *)
Definition subrange_signed : M (option Z) :=
  t <- token;;
  if t =? tINT_CONST then v <- subrange_value;; ret (Some v)
  else
    getToken;;
    x <- token;;
    if x =? tINT_CONST then
      v <- subrange_value;;
      ret (Some (if t =? tMINUS then s16 (- v) else v))
    else error eINTCONST;; ret None.

(** The constants of an enumerated type, pascal/pas_block.c:975-986 *)
Fixpoint enum_loop (k : nat) (tp : nat) (n : Z) : M Z :=
  match k with
  | O => no_fuel
  | S k' =>
    getToken;;
    t <- token;;
    m <- (if t =? tIDENT then
            name <- tkn_str;; _ <- add_const name sSCALAR_OBJECT n (Some tp);; getToken;; ret (n + 1)
          else error eIDENT;; ret n);;
    x <- token;;
    if x =? tCOMMA then enum_loop k' tp m else ret m
  end.

(** pas_NewSimpleType, pascal/pas_block.c:960-1190.  A first bound that is not a
    literal leaves value without a value. *)
Definition new_simple_type (k : nat) (name : Z) : M (option nat) :=
  t <- token;;
  if t =? tLPAREN then
    p <- add_type name sSCALAR sINT_SIZE None;;
    n <- enum_loop k p 0;;
    upd_type p (set_max (n - 1));;
    expect tRPAREN eRPAREN;;
    ret (Some p)
  else if (t =? tINT_CONST) || (t =? tMINUS) || (t =? tPLUS) then
    v <- subrange_signed;;
    match v with
    | None => ub
    | Some lo =>
      p <- add_type name sSUBRANGE sINT_SIZE None;;
      upd_type p (fun t => set_max MAXINT (set_min lo (set_sub sINT t)));;
      getToken;;
      expect tSUBRANGE eSUBRANGE;;
      x <- token;;
      hi <- (if (x =? tINT_CONST) || (x =? tMINUS) || (x =? tPLUS) then
               v <- subrange_signed;;
               ret (match v with None => lo | Some v => v end)
             else error eINTCONST;; ret 32767);;
      (if hi <? lo then error eSUBRANGETYPE else upd_type p (set_max hi));;
      getToken;;
      ret (Some p)
    end
  else if t =? tCHAR_CONST then
    lo <- tkn_uint;;
    p <- add_type name sSUBRANGE sCHAR_SIZE None;;
    upd_type p (fun t => set_max MAXCHAR (set_min lo (set_sub sCHAR t)));;
    getToken;;
    expect tSUBRANGE eSUBRANGE;;
    x <- token;;
    hi <- tkn_uint;;
    (if negb (x =? tCHAR_CONST) || (hi <? lo) then error eSUBRANGETYPE
     else upd_type p (set_max hi);; getToken);;
    ret (Some p)
  else if t =? sSCALAR_OBJECT then
    lo <- tkn_uint;;
    q <- tkn_ptr;;
    p <- add_type name sSUBRANGE sINT_SIZE q;;
    upd_type p (fun t => set_max MAXINT (set_min (s32 lo) (set_sub sSCALAR_OBJECT t)));;
    getToken;;
    expect tSUBRANGE eSUBRANGE;;
    x <- token;;
    hi <- tkn_uint;;
    q' <- tkn_ptr;;
    (if negb (x =? sSCALAR_OBJECT) ||
        negb (match q, q' with Some a, Some b => (a =? b)%nat | _, _ => false end) ||
        (s32 hi <? s32 lo)
     then error eSUBRANGETYPE
     else upd_type p (set_max (s32 hi));; getToken);;
    ret (Some p)
  else ret None.

(** pas_AddForwardTypeRef, pascal/pas_block.c:2454-2490: strlen of a null pointer *)
Definition add_forward_ref (name refname : Z) : M nat :=
  if name =? -1 then ub
  else
    n <- nsym;;
    p <- add_type name sPOINTER sPTR_SIZE None;;
    (fun d => Done p (set_fwd (mkFref p name refname n :: fwd d) d)).

(** The loop of pas_ResolveForwardTypeRef, pascal/pas_block.c:2495-2558.  When
    the type the first entry refers to is the type of a later entry, the loop
    starts over with nothing changed. *)
Fixpoint resolve_loop (l : list fref) : M unit :=
  match l with
  | [] => fun d => Done tt (set_fwd [] d)
  | c :: r =>
    if existsb (fun f => fType f =? fRef c) r then hang
    else
      (fun d =>
         match find_any (fRef c) (fStart c) 0 (syms d) None with
         | None => error eINVTYPE d
         | Some q =>
           (s <- get_sym q;;
            if sKind s =? sTYPE then upd_type (fPtr c) (set_par (Some q)) else error eINVTYPE) d
         end);;
      resolve_loop r
  end.
Definition resolve_forward : M unit := fun d => resolve_loop (fwd d) d.

(** pas_OrdinalTypeIdentifier, pascal/pas_block.c:1621-1659 *)
Definition is_ordinal (t : Z) : bool :=
  (t =? sINT) || (t =? sWORD) || (t =? sSHORTINT) || (t =? sSHORTWORD) || (t =? sLONGINT) ||
  (t =? sLONGWORD) || (t =? sBOOLEAN) || (t =? sCHAR) || (t =? sSCALAR) || (t =? sSUBRANGE).
Definition ordinal_type_identifier : M (option nat) :=
  p <- type_identifier;;
  match p with
  | None => ret None
  | Some p => t <- get_type p;; ret (if is_ordinal (tType t) then Some p else None)
  end.

(** pas_DeclareSimpleType, pascal/pas_block.c:281-332 *)
Definition declare_simple_type (k : nat) (name : Z) : M (option nat) :=
  p <- new_simple_type k name;;
  match p with
  | Some _ => ret p
  | None =>
    q <- type_identifier;;
    match q with
    | None => ret None
    | Some q =>
      t <- get_type q;;
      x <- token;;
      if (tType t =? sSTRING) && (x =? tLBRACK) then not_modelled
      else
        n <- var_size;;
        p <- add_type name (tType t) n (Some q);;
        upd_type p (fun u => set_idx (tIdx t) (set_max (tMax t) (set_min (tMin t) (set_dim (tDim t) u))));;
        ret (Some p)
    end
  end.

(** pas_GetArrayIndexType, pascal/pas_block.c:1664-1838, first as far as the
    bounds: [Some None] no index but go on, [None] return NULL at once *)
Definition add_index (ty size sub lo hi : Z) : M (option nat) :=
  p <- add_type (-1) ty size None;;
  upd_type p (fun t => set_max hi (set_min lo (set_sub sub t)));;
  ret (Some p).
Definition array_index_type : M (option nat) :=
  t <- token;;
  int_type <- (if t =? sTYPE then
                 p <- tkn_ptr;;
                 match p with
                 | None => ub
                 | Some p => ty <- get_type p;; ret (tType ty =? tINT_CONST)
                 end
               else ret false);;
  if (t =? tINT_CONST) || int_type then
    lo <- tkn_uint;;
    getToken;;
    x <- token;;
    if x =? tSUBRANGE then
      getToken;;
      y <- token;;
      hi <- tkn_uint;;
      if negb (y =? tINT_CONST) then error eINTCONST;; ret None
      else if hi <? lo then error eSUBRANGETYPE;; ret None
      else getToken;; add_index sSUBRANGE sINT_SIZE sINT (s32 lo) (s32 hi)
    else error eINDEXTYPE;; ret None
  else if t =? tLPAREN then error eNOTYET;; getToken;; ret None
  else
    (if t =? sTYPE then ret tt else error eINDEXTYPE);;
    p <- tkn_ptr;;
    match p with
    | None => ub
    | Some p =>
      ty <- as_type p;;
      let o := tType ty in
      if (o =? sBOOLEAN) || (o =? sSCALAR) || (o =? sSUBRANGE) then
        getToken;;
        add_index o (if o =? sBOOLEAN then sBOOLEAN_SIZE else sINT_SIZE) o (tMin ty) (tMax ty)
      else if (o =? sINT) || (o =? sWORD) || (o =? sSHORTINT) || (o =? sSHORTWORD) ||
              (o =? sLONGINT) || (o =? sLONGWORD) || (o =? sCHAR) then
        error eNOTYET;; getToken;; ret None
      else
        error eINDEXTYPE;; getToken;;
        x <- token;;
        (if x =? tRBRACK then getToken else ret tt);; ret None
    end.

(** The index types of an array, pascal/pas_block.c:1422-1478 *)
Fixpoint index_list (k : nat) (ap : nat) (last : option nat) : M unit :=
  match k with
  | O => no_fuel
  | S k' =>
    getToken;;
    ip <- array_index_type;;
    last' <-
      match ip with
      | None => ret last
      | Some ip =>
        upd_type ap (fun t => set_dim (u8 (tDim t + 1)) t);;
        a <- get_type ap;;
        upd_type ip (set_dim (tDim a));;
        match last with
        | None => upd_type ap (set_idx (Some ip))
        | Some l => upd_type l (set_idx (Some ip))
        end;;
        ret (Some ip)
      end;;
    x <- token;;
    if x =? tCOMMA then index_list k' ap last' else ret tt
  end.

(** The loop over the index types, pascal/pas_block.c:1879-1893: indexUnit is a
    uint32_t, indexRange a uint16_t *)
Fixpoint unit_loop (n : nat) (ip : option nat) (u : Z) : M Z :=
  match ip with
  | None => ret u
  | Some p =>
    match n with
    | O => hang
    | S n' =>
      upd_type p (set_size u);;
      t <- get_type p;;
      let r := tMax t - tMin t in
      if out32 r || out32 (r + 1) then ub
      else unit_loop n' (tIdx t) (u32 (u * u16 (r + 1)))
    end
  end.

(** pas_GetArrayBaseType, pascal/pas_block.c:1840-1899; [td]: pas_TypeDenoter(NULL) *)
Definition array_base_type (td : M nat) (ap : nat) : M unit :=
  expect tOF eOF;;
  p <- td;;
  b <- base_type p;;
  bt <- as_type b;;
  a <- get_type ap;;
  n <- nsym;;
  u <- unit_loop n (tIdx a) (tSize bt);;
  upd_type ap (fun t => set_par (Some p) (set_size u t)).

(** pas_DeclareField, pascal/pas_block.c:2303-2361 *)
Fixpoint declare_field (td : M nat) (k : nat) (rp : nat) (last : option nat) : M (option nat) :=
  match k with
  | O => no_fuel
  | S k' =>
    t <- token;;
    if negb (t =? tIDENT) then error eIDENT;; ret None
    else
      name <- tkn_str;;
      fp <- add_field name rp last;;
      getToken;;
      x <- token;;
      tp <- (if x =? tCOMMA then
               getToken;;
               np <- declare_field td k' rp (Some fp);;
               match np with
               | None => ret None
               | Some q => f <- get_field q;; ret (rPar f)
               end
             else
               expect tCOLON eCOLON;;
               p <- td;; ret (Some p));;
      upd_type rp (fun t => set_max (tMax t + 1) t);;
      match tp with
      | None => ret (Some fp)
      | Some p =>
        ty <- get_type p;;
        upd_field fp (fun f => mkFld (tSize ty) (rOff f) (rRec f) (Some p) (rNext f));;
        ret (Some fp)
      end
  end.

(** The fixed part, pascal/pas_block.c:1932-1979 *)
Fixpoint fixed_part (td : M nat) (k : nat) (rp : nat) (last : option nat) : M unit :=
  match k with
  | O => no_fuel
  | S k' =>
    t <- token;;
    if t =? tCASE then ret tt
    else
      fp <- declare_field td k rp last;;
      x <- token;;
      if x =? tSEMI then
        getToken;;
        y <- token;;
        if (y =? tEND) || (y =? tCASE) then ret tt else fixed_part td k' rp fp
      else ret tt
  end.

(** One field is placed: recordOffset is an int16_t, the offset a uint32_t *)
Definition place_field (p : nat) (off : Z) : M Z :=
  f <- get_field p;;
  al <- (if INT_ISALIGNED off then ret false else int_align_required (rPar f));;
  let off' := if al then s16 (INT_ALIGNUP off) else off in
  upd_field p (fun f => mkFld (rSize f) (u32 off') (rRec f) (rPar f) (rNext f));;
  ret (s16 (off' + rSize f)).

(** The offsets of the fixed fields, pascal/pas_block.c:1985-2011, and of the
    fields of one variant, :2216-2251: [n] is tMaxValue - recordCount; the field
    after the last one placed, recordOffset and what is left of [n].  A field is
    always followed by a field or by nothing. *)
Fixpoint place_fields (n : nat) (fp : option nat) (off : Z) : M (option nat * Z * nat) :=
  match n, fp with
  | O, _ => ret (fp, off, O)
  | _, None => ret (None, off, n)
  | S n', Some p =>
    off' <- place_field p off;;
    f <- get_field p;;
    place_fields n' (rNext f) off'
  end.

(** IS_CONSTANT, pascal/pas_block.c:74-79 *)
Definition is_constant (t : Z) : bool :=
  (t =? tINT_CONST) || (t =? tBOOLEAN_CONST) || (t =? tCHAR_CONST) || (t =? tREAL_CONST) ||
  (t =? sSCALAR_OBJECT).

(** The constants before a variant, pascal/pas_block.c:2137-2142 *)
Fixpoint case_constants (k : nat) : M unit :=
  match k with
  | O => no_fuel
  | S k' =>
    getToken;;
    x <- token;;
    (if x =? tCOMMA then getToken else ret tt);;
    y <- token;;
    if is_constant y then case_constants k' else ret tt
  end.

(** The fields of one variant, pascal/pas_block.c:2171-2210: the last field and
    the first *)
Fixpoint variant_fields (td : M nat) (k : nat) (rp : nat) (last first : option nat)
  : M (option nat) :=
  match k with
  | O => no_fuel
  | S k' =>
    fp <- declare_field td k rp last;;
    let first' := match first with None => fp | Some _ => first end in
    x <- token;;
    if x =? tSEMI then
      getToken;;
      y <- token;;
      if y =? tEND then ret first' else variant_fields td k' rp fp first'
    else ret first'
  end.

(** The variants, pascal/pas_block.c:2108-2282: [placed] is recordCount, [mx]
    maxRecordSize *)
Fixpoint variants (td : M nat) (k : nat) (rp : nat) (last : option nat) (start placed mx : Z) : M Z :=
  match k with
  | O => no_fuel
  | S k' =>
    t <- token;;
    if negb (is_constant t) then error eINVCONST;; ret mx
    else
      case_constants k;;
      expect tCOLON eCOLON;;
      expect tLPAREN eLPAREN;;
      x <- token;;
      r <- (if x =? tRPAREN then ret (last, placed, mx)
            else
              first <- variant_fields td k rp last None;;
              rt <- get_type rp;;
              r <- place_fields (Z.to_nat (tMax rt - placed)) first start;;
              let '(fp, off, rem) := r in
              ret (fp, tMax rt - Z.of_nat rem, if mx <? off then off else mx));;
      let '(last', placed', mx') := r in
      expect tRPAREN eRPAREN;;
      y <- token;;
      if y =? tSEMI then
        getToken;;
        z <- token;;
        if z =? tEND then ret mx' else variants td k' rp last' start placed' mx'
      else ret mx'
  end.

(** pas_DeclareRecordType, pascal/pas_block.c:1903-2300 *)
Definition declare_record (td : M nat) (k : nat) (name : Z) : M nat :=
  rp <- add_type name sRECORD 0 None;;
  fixed_part td k rp None;;
  rt <- get_type rp;;
  r <- place_fields (Z.to_nat (tMax rt)) (Some (S rp)) 0;;
  let '(fp, off, rem) := r in
  let placed := tMax rt - Z.of_nat rem in
  upd_type rp (set_size (u32 off));;
  t <- token;;
  (if t =? tCASE then
     getToken;;
     t <- token;;
     r <- (if negb (t =? tIDENT) then error eRECORDDECLARE;; ret (fp, off)
           else
             fname <- tkn_str;;
             getToken;;
             expect tCOLON eCOLON;;
             tp <- ordinal_type_identifier;;
             match tp with
             | None => error eINVTYPE;; ret (fp, off)
             | Some tp =>
               sp <- add_field fname rp fp;;
               upd_type rp (fun t => set_max (tMax t + 1) t);;
               ty <- get_type tp;;
               upd_field sp (fun f => mkFld (tSize ty) (rOff f) (rRec f) (Some tp) (rNext f));;
               off' <- place_field sp off;;
               ret (Some sp, off')
             end);;
     let '(fp, off) := r in
     expect tOF eOF;;
     mx <- variants td k rp fp off placed (u16 off);;
     upd_type rp (set_size mx)
   else ret tt);;
  expect tEND eRECORDDECLARE;;
  ret rp.

(** pas_NewComplexType, pascal/pas_block.c:1350-1618.  [td]: pas_TypeDenoter(NULL) *)
Definition array_type (td : M nat) (k : nat) (name : Z) : M (option nat) :=
  getToken;;
  t <- token;;
  (if t =? tLBRACK then ret tt else error eLBRACKET);;
  p <- add_type name sARRAY 0 None;;
  index_list k p None;;
  expect tRBRACK eRBRACKET;;
  array_base_type td p;;
  ret (Some p).
Definition new_complex_type (td : M nat) (k : nat) (name : Z) : M (option nat) :=
  t <- token;;
  if t =? tCARET then
    getToken;;
    q <- type_identifier;;
    match q with
    | Some _ => p <- add_type name sPOINTER sPTR_SIZE q;; ret (Some p)
    | None =>
      x <- token;;
      if x =? tIDENT then
        refname <- tkn_str;;
        p <- add_forward_ref name refname;;
        getToken;;
        y <- token;;
        (if y =? tCOLON then error eNOTYET;; getToken else ret tt);;
        ret (Some p)
      else error eINVTYPE;; ret None
    end
  else if t =? tPACKED then
    getToken;;
    x <- token;;
    if x =? tARRAY then array_type td k name else ret None
  else if t =? tARRAY then array_type td k name
  else if t =? tRECORD then getToken;; p <- declare_record td k name;; ret (Some p)
  else if t =? tSET then
    getToken;;
    expect tOF eOF;;
    q <- ordinal_type_identifier;;
    q <- match q with Some _ => ret q | None => declare_simple_type k (-1) end;;
    match q with
    | None => error eSET;; ret None
    | Some q =>
      ty <- get_type q;;
      if (tType ty =? sSCALAR) || (tType ty =? sSUBRANGE) then
        p <- add_type name sSET sSET_SIZE (Some q);;
        upd_type p (fun t => set_max (tMax ty) (set_min (tMin ty) (set_sub (tType ty) t)));;
        (if sSET_MAXELEM <? s16 (tMax ty - tMin ty + 1) then
           error eSETRANGE;; upd_type p (fun t => set_max (tMin t + sSET_MAXELEM - 1) t)
         else ret tt);;
        ret (Some p)
      else error eSET;; ret None
    end
  else if t =? tFILE then
    getToken;;
    expect tOF eOF;;
    q <- td;;
    n <- var_size;;
    ty <- get_type q;;
    p <- add_type name sFILE n (Some q);;
    upd_type p (set_sub (tType ty));;
    ret (Some p)
  else if t =? sTEXTFILE then
    n <- var_size;;
    q <- tkn_ptr;;
    _ <- add_type name sTEXTFILE n q;;
    ret None
  else ret None.

(** pas_TypeDenoter, pascal/pas_block.c:912-955: when there is no type, the null
    pointer is followed *)
Fixpoint type_denoter (n : nat) (name : Z) : M nat :=
  match n with
  | O => no_fuel
  | S n' =>
    p <- type_identifier;;
    match p with
    | Some p => ret p
    | None =>
      q <- new_complex_type (type_denoter n' (-1)) n name;;
      q <- match q with
           | Some _ => ret q
           | None =>
             r <- new_simple_type n name;;
             match r with Some _ => ret r | None => error eINVTYPE;; ret None end
           end;;
      match q with
      | None => ub
      | Some p => t <- get_type p;; set_var_size (tSize t);; ret p
      end
    end
  end.

(** pas_DeclareType, pascal/pas_block.c:252-278 *)
Definition declare_type (n : nat) (name : Z) : M unit :=
  p <- new_complex_type (type_denoter n (-1)) n name;;
  match p with
  | Some _ => ret tt
  | None =>
    q <- declare_simple_type n name;;
    match q with Some _ => ret tt | None => error eINVTYPE end
  end.

(** pas_TypeDefinitionGroup, pascal/pas_block.c:3294-3341 *)
Fixpoint type_loop (k n : nat) : M unit :=
  match k with
  | O => no_fuel
  | S k' =>
    t <- token;;
    if t =? tIDENT then
      name <- tkn_str;;
      getToken;;
      expect tEQ eEQ;;
      declare_type n name;;
      x <- token;;
      if x =? tSEMI then getToken;; type_loop k' n else ret tt
    else ret tt
  end.
Definition type_group (n : nat) : M unit := type_loop n n;; resolve_forward.

(** ** Variables *)

(** pas_FileTypeDenoter, pascal/pas_block.c:1194-1307 *)
Definition file_of (q : nat) : M (option nat) :=
  ty <- get_type q;;
  p <- add_type 0 sFILE (tSize ty) (Some q);;
  upd_type p (fun t => set_max (tMax ty) (set_min (tMin ty) (set_sub (tType ty) t)));;
  ret (Some p).
Definition file_type_denoter : M (option nat) :=
  t <- token;;
  p <- (if t =? sTEXTFILE then not_modelled
        else if t =? tFILE then
          getToken;;
          expect tOF eOF;;
          x <- token;;
          if negb (x =? sTYPE) then error eINVTYPE;; ret None
          else
            q <- tkn_ptr;;
            match q with
            | None => ub
            | Some q => p <- file_of q;; getToken;; ret p
            end
        else ret None);;
  q <- tkn_ptr;;
  match q with
  | None => ret p
  | Some q =>
    b <- base_type q;;
    bt <- as_type b;;
    if tType bt =? sTEXTFILE then getToken;; ret (Some b)
    else if tType bt =? sFILE then
      match tPar bt with
      | None => ub
      | Some e => f <- file_of e;; getToken;; ret f
      end
    else ret p
  end.

(** pas_DeclareVar, pascal/pas_block.c:337-537, once the type is known.  The
    arithmetic on g_dStack and g_dwVarSize is that of int32_t. *)
Definition allocate (name : Z) (p : nat) : M unit :=
  t <- as_type p;;
  d0 <- dstack;;
  if (tType t =? sFILE) || (tType t =? sTEXTFILE) then
    _ <- add_file name (tType t) d0 (tPar t);;
    if out32 (d0 + sINT_SIZE) then ub else set_dstack (d0 + sINT_SIZE)
  else
    al <- (if INT_ISALIGNED d0 then ret false else int_align_required (Some p));;
    let d1 := if al then INT_ALIGNUP d0 else d0 in
    n <- var_size;;
    _ <- add_variable name (tType t) d1 n (Some p);;
    if out32 d1 || out32 (d1 + n) then ub else set_dstack (d1 + n).

Fixpoint declare_var (k n : nat) : M (option nat) :=
  match k with
  | O => no_fuel
  | S k' =>
    name <- tkn_str;;
    getToken;;
    x <- token;;
    tp <- (if x =? tCOMMA then
             getLevelToken;;
             y <- token;;
             if y =? tIDENT then declare_var k' n else error eIDENT;; ret None
           else
             expect tCOLON eCOLON;;
             f <- file_type_denoter;;
             match f with
             | Some _ => ret f
             | None =>
               p <- type_denoter n 0;;
               y <- token;;
               if y =? tEQ then not_modelled else ret (Some p)
             end);;
    match tp with
    | None => ret None
    | Some p => allocate name p;; ret (Some p)
    end
  end.

(** pas_VariableDeclarationGroup, pascal/pas_block.c:3345-3371 *)
Fixpoint var_loop (k n : nat) : M unit :=
  match k with
  | O => no_fuel
  | S k' =>
    t <- token;;
    if t =? tIDENT then
      _ <- declare_var n n;;
      x <- token;;
      if x =? tSEMI then getToken;; var_loop k' n else ret tt
    else ret tt
  end.
Definition var_group (n : nat) : M unit := var_loop n n.

(** ** Formal parameters *)

Definition upd_var (p : nat) (k : option Z) (f : varrec -> varrec) : M unit :=
  upd p (fun s => match sParm s with
                  | PVar v => mkS (sName s) (match k with Some k => k | None => sKind s end) (PVar (f v))
                  | _ => s
                  end).

(** pas_DeclareParameter, pascal/pas_block.c:2370-2434: the type *)
Fixpoint declare_parameter (k : nat) (byref : bool) : M (option nat) :=
  match k with
  | O => no_fuel
  | S k' =>
    t <- token;;
    if negb (t =? tIDENT) then error eIDENT;; not_modelled   (* typePtr is uninitialized *)
    else
      name <- tkn_str;;
      vp <- add_variable name sINT 0 sINT_SIZE None;;
      getToken;;
      x <- token;;
      tp <- (if x =? tCOMMA then getLevelToken;; declare_parameter k' byref
             else
               expect tCOLON eCOLON;;
               p <- type_identifier;;
               match p with None => error eINVTYPE;; ret p | Some _ => ret p end);;
      kd <- (if byref then set_var_size sPTR_SIZE;; ret sVAR_PARM
             else match tp with
                  | None => ub
                  | Some p => t <- get_type p;; ret (tType t)
                  end);;
      n <- nparms;;
      set_nparms (n + 1);;
      sz <- var_size;;
      upd_var vp (Some kd) (fun v => mkVar (vOff v) (u32 sz) tp);;
      ret tp
  end.

(** The sections, pascal/pas_block.c:3398-3434 *)
Fixpoint parameter_sections (k n : nat) : M unit :=
  match k with
  | O => no_fuel
  | S k' =>
    getLevelToken;;
    t <- token;;
    byref <- (if t =? tVAR then getLevelToken;; ret true else ret false);;
    _ <- declare_parameter n byref;;
    x <- token;;
    if x =? tSEMI then parameter_sections k' n else ret tt
  end.

(** The offsets, from the last parameter to the first,
    pascal/pas_block.c:3450-3463: parameterOffset is an int16_t *)
Fixpoint parameter_offsets (i : nat) (pp : nat) (off : Z) : M Z :=
  match i with
  | O => ret off
  | S i' =>
    s <- get_sym (pp + i);;
    match sParm s with
    | PVar v =>
      let off' := s16 (off - INT_ALIGNUP (vSize v)) in
      upd_var (pp + i) None (fun v => mkVar off' (vSize v) (vPar v));;
      parameter_offsets i' pp off'
    | _ => ub
    end
  end.

(** pas_FormalParameterList, pascal/pas_block.c:3376-3466; [pp] is procPtr *)
Definition formal_parameters (n : nat) (pp : nat) : M Z :=
  set_nparms 0;;
  t <- token;;
  (if t =? tLPAREN then parameter_sections n n;; expect tRPAREN eRPAREN else ret tt);;
  m <- nparms;;
  parameter_offsets (Z.to_nat m) pp 0.
