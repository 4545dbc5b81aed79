(** Specification of the expression compiler: the grammar of expressions, their
    types and their values.  Independent of the functions of ExprModel.v: only
    tokens, type names and instructions are shared. *)

From Coq Require Import ZArith Bool List.
From Verif Require Import State Opcodes Machine VmSpec ExprModel.
Import ListNotations.
Open Scope Z_scope.

(** ** Abstract syntax *)

(** A variable: type, nesting level of its declaration, offset in its frame *)
Record var := mkVar { vty : etype; vlev : Z; voff : Z }.

Inductive addop := Plus | Minus | Or | Xor.
Inductive mulop := Times | Div | Mod | And | Shl | Shr.
(** Standard functions *)
Inductive sfun := FnAbs | FnSqr | FnPred | FnSucc | FnOrd | FnOdd | FnChr.
Inductive rel := Equal | Unequal | Less | LessEq | Greater | GreaterEq.

Inductive factor_ :=
| FInt (n : Z) | FBool (b : bool) | FChar (ch : Z) | FVar (x : var)
| FParen (e : expr) | FNot (f : factor_) | FCast (t : etype) (e : expr)
| FFun (g : sfun) (e : expr)
with term_ := TFactor (f : factor_) | TBin (t : term_) (o : mulop) (f : factor_)
with simple_ := STerm (minus : bool) (t : term_) | SBin (s : simple_) (o : addop) (t : term_)
with expr := ESimple (s : simple_) | ERel (s1 : simple_) (r : rel) (s2 : simple_).

Scheme factor_mut := Induction for factor_ Sort Prop
  with term_mut := Induction for term_ Sort Prop
  with simple_mut := Induction for simple_ Sort Prop
  with expr_mut := Induction for expr Sort Prop.
Combined Scheme syntax_ind from factor_mut, term_mut, simple_mut, expr_mut.

(** ** Concrete syntax *)

Definition kind_of (t : etype) : Z :=
  match t with
  | xInteger => sINT | xWord => sWORD | xShortInteger => sSHORTINT | xShortWord => sSHORTWORD
  | xLongInteger => sLONGINT | xLongWord => sLONGWORD | xChar => sCHAR | xBoolean => sBOOLEAN
  | _ => -1
  end.
(** Size in bytes *)
Definition size_of (t : etype) : Z :=
  match t with
  | xShortInteger | xShortWord | xChar => 1
  | xLongInteger | xLongWord => 4
  | _ => 2
  end.

Definition spells_add (t : tok) (o : addop) : Prop :=
  match o with
  | Plus => tk t = tPLUS | Minus => tk t = tMINUS
  | Or => tk t = tOR \/ tk t = tBAR | Xor => tk t = tXOR
  end.
Definition spells_mul (t : tok) (o : mulop) : Prop :=
  match o with
  | Times => tk t = tMUL | Div => tk t = tDIV | Mod => tk t = tMOD
  | And => tk t = tAND \/ tk t = tAMP | Shl => tk t = tSHL | Shr => tk t = tSHR
  end.
Definition spells_rel (t : tok) (r : rel) : Prop :=
  tk t = match r with
         | Equal => tEQ | Unequal => tNE | Less => tLT | LessEq => tLE
         | Greater => tGT | GreaterEq => tGE end.
Definition spells_std (t : tok) (g : sfun) : Prop :=
  tk t = tSTDFUNC /\
  tsub t = match g with
           | FnAbs => txABS | FnSqr => txSQR | FnPred => txPRED | FnSucc => txSUCC
           | FnOrd => txORD | FnOdd => txODD | FnChr => txCHR end.
Definition spells_var (t : tok) (x : var) : Prop :=
  tk t = kind_of (vty x) /\ sLevel (tsym t) = vlev x /\ vOffset (tsym t) = voff x /\
  vSize (tsym t) = size_of (vty x) /\ ~ In (vty x) [xUnknown; xAnyOrdinal].

(** The grammar of Pascal: factors bind tightest, then terms, simple
    expressions and relations; operators of the same level associate to the
    left; a sign belongs to the first term. *)
Inductive gfactor : list tok -> factor_ -> Prop :=
| g_int t n : tk t = tINT_CONST -> tval t = n -> gfactor [t] (FInt n)
| g_bool t (b : bool) : tk t = tBOOLEAN_CONST -> tval t = (if b then 4294967295 else 0) -> gfactor [t] (FBool b)
| g_char t n : tk t = tCHAR_CONST -> tval t = n -> gfactor [t] (FChar n)
| g_var t x : spells_var t x -> gfactor [t] (FVar x)
| g_paren a ts e b : tk a = tLPAREN -> gexpr ts e -> tk b = tRPAREN ->
    gfactor (a :: ts ++ [b]) (FParen e)
| g_not a ts f : tk a = tNOT \/ tk a = tTILDE -> gfactor ts f -> gfactor (a :: ts) (FNot f)
| g_cast a t b ts e d : tk a = sTYPE -> tType (tsym a) = kind_of t ->
    ~ In t [xUnknown; xAnyOrdinal] -> tk b = tLPAREN ->
    gexpr ts e -> tk d = tRPAREN -> gfactor (a :: b :: ts ++ [d]) (FCast t e)
| g_fun a g b ts e d : spells_std a g -> tk b = tLPAREN -> gexpr ts e -> tk d = tRPAREN ->
    gfactor (a :: b :: ts ++ [d]) (FFun g e)
with gterm : list tok -> term_ -> Prop :=
| g_factor ts f : gfactor ts f -> gterm ts (TFactor f)
| g_mul ts t a o us f : gterm ts t -> spells_mul a o -> gfactor us f ->
    gterm (ts ++ a :: us) (TBin t o f)
with gsimple : list tok -> simple_ -> Prop :=
| g_term ts t : gterm ts t -> gsimple ts (STerm false t)
| g_plus a ts t : tk a = tPLUS -> gterm ts t -> gsimple (a :: ts) (STerm false t)
| g_minus a ts t : tk a = tMINUS -> gterm ts t -> gsimple (a :: ts) (STerm true t)
| g_add ts s a o us t : gsimple ts s -> spells_add a o -> gterm us t ->
    gsimple (ts ++ a :: us) (SBin s o t)
with gexpr : list tok -> expr -> Prop :=
| g_simple ts s : gsimple ts s -> gexpr ts (ESimple s)
| g_rel ts s1 a r us s2 : gsimple ts s1 -> spells_rel a r -> gsimple us s2 ->
    gexpr (ts ++ a :: us) (ERel s1 r s2).

Scheme gfactor_mut := Induction for gfactor Sort Prop
  with gterm_mut := Induction for gterm Sort Prop
  with gsimple_mut := Induction for gsimple Sort Prop
  with gexpr_mut := Induction for gexpr Sort Prop.
Combined Scheme grammar_ind from gfactor_mut, gterm_mut, gsimple_mut, gexpr_mut.

(** Tokens that would continue an expression *)
Definition continues (t : tok) : Prop :=
  In (tk t) [tMUL; tDIV; tFDIV; tMOD; tAND; tSHL; tSHR; tAMP; tPLUS; tMINUS; tOR; tXOR; tSYMDIFF;
             tBAR; tEQ; tNE; tLT; tLE; tGT; tGE; tIN].
(** The tokens [rest] behind an expression do not continue it. *)
Definition ended (rest : list tok) : Prop := ~ continues (hd eoftok rest).

(** ** Numbers *)

Inductive class := Signed16 | Unsigned16 | Signed32 | Unsigned32 | Character | Logical.
Definition class_of (t : etype) : option class :=
  match t with
  | xInteger | xShortInteger => Some Signed16
  | xWord | xShortWord => Some Unsigned16
  | xLongInteger => Some Signed32
  | xLongWord => Some Unsigned32
  | xChar => Some Character
  | xBoolean => Some Logical
  | _ => None
  end.

(** Numbers of a type, as they are represented on the stack: short integers
    occupy a word there; true is -1. *)
Definition inr (t : etype) (z : Z) : bool :=
  match class_of t with
  | Some Signed16 => (-32768 <=? z) && (z <=? 32767)
  | Some Unsigned16 => (0 <=? z) && (z <=? 65535)
  | Some Signed32 => (-2147483648 <=? z) && (z <=? 2147483647)
  | Some Unsigned32 => (0 <=? z) && (z <=? 4294967295)
  | Some Character => (0 <=? z) && (z <=? 255)
  | Some Logical => (z =? 0) || (z =? -1)
  | None => false
  end.
Definition limit (t : etype) (z : Z) : option Z := if inr t z then Some z else None.

Definition is16 (t : etype) : bool :=
  match class_of t with Some Signed16 | Some Unsigned16 => true | _ => false end.
Definition is32 (t : etype) : bool :=
  match class_of t with Some Signed32 | Some Unsigned32 => true | _ => false end.
Definition is_logical (t : etype) : bool :=
  match class_of t with Some Logical => true | _ => false end.
Definition same (a b : etype) : bool := if teq a b then true else false.

(** ** Types.  [ctx] is the type the context asks for ([xUnknown] if none); it
    determines the type of integer constants.  Where two 16-bit integer types (or
    two long types) meet, the left one determines the type of the result. *)

Definition type_const (ctx : etype) (n : Z) : option etype :=
  if n <? 0 then None
  else if is32 ctx then if inr ctx n then Some ctx else None
  else if n <=? 32767 then
    Some (if same ctx xShortInteger && (n <=? 255) then xShortInteger
          else if same ctx xShortWord then xShortWord else xInteger)
  else if n <=? 65535 then if same ctx xShortWord then Some xShortWord else None
  else if n <=? 2147483647 then Some xLongInteger
  else None.

Definition asked (ctx t : etype) : bool :=
  same ctx xUnknown || same ctx xAnyOrdinal || same ctx t.
Definition of_context (ctx t : etype) : etype := if same ctx xUnknown then t else ctx.

(** Types of the operands for which an operator is defined, besides the mixture
    of types of the same size.  LongWord has no addition, subtraction and
    negation: see C65_longword_refuted. *)
Definition mixable (a b : etype) : bool := (is16 a && is16 b) || (is32 a && is32 b).
Definition type_add (o : addop) (a b : etype) : option etype :=
  match o with
  | Plus | Minus => if mixable a b && negb (same a xLongWord) then Some a else None
  | Or | Xor => if mixable a b || (is_logical a && is_logical b) then Some a else None
  end.
Definition type_mul (o : mulop) (a b : etype) : option etype :=
  match o with
  | Times | Div | Mod => if mixable a b then Some a else None
  | And => if mixable a b || (is_logical a && is_logical b) then Some a else None
  | Shl | Shr => if same a b && is16 a then Some a else None
  end.
(** Equal types, or Integer and a short type.  Order is defined for 16-bit
    numbers only: see C65_long_order_refuted, C65_char_order_refuted. *)
Definition type_rel (r : rel) (a b : etype) : option etype :=
  let comparable := (same a b && (is16 a || is32 a || is_logical a || same a xChar)) || (same a xInteger && same b xShortInteger) ||
                    (same a xInteger && same b xShortWord) ||
                    (same a xShortInteger && same b xInteger) ||
                    (same a xShortWord && same b xInteger) in
  match r with
  | Equal | Unequal => if comparable then Some xBoolean else None
  | _ => if comparable && is16 a then Some xBoolean else None
  end.

(** Standard functions: the type asked for, and the type of the result.  Abs is
    defined for Integer, Sqr for 16-bit numbers, the other ones for 16-bit numbers
    and characters, except Chr: see C90_succ_long_refuted, C90_succ_boolean_refuted. *)
Definition fun_ctx (g : sfun) : etype :=
  match g with FnAbs | FnSqr => xUnknown | FnChr => xInteger | _ => xAnyOrdinal end.
Definition type_fun (g : sfun) (t : etype) : option etype :=
  match g with
  | FnAbs => if same t xInteger then Some xInteger else None
  | FnSqr => if is16 t then Some t else None
  | FnPred | FnSucc => if is16 t || same t xChar then Some t else None
  | FnOrd => if is16 t || same t xChar then Some xInteger else None
  | FnOdd => if is16 t || same t xChar then Some xBoolean else None
  | FnChr => if same t xInteger then Some xChar else None
  end.

Definition bind {A B} (o : option A) (k : A -> option B) : option B :=
  match o with Some a => k a | None => None end.

Fixpoint ftype (ctx : etype) (f : factor_) : option etype :=
  match f with
  | FInt n => type_const ctx n
  | FBool _ => Some xBoolean
  | FChar n => if inr xChar n then Some xChar else None
  | FVar x => match class_of (vty x) with Some _ => Some (vty x) | None => None end
  | FParen e => etype_of xUnknown e
  | FNot f => bind (ftype ctx f) (fun t => if is16 t || is32 t || is_logical t then Some t else None)
  | FCast t e => bind (etype_of xUnknown e) (fun u =>
      if is_logical t || is_logical u then None
      else match class_of t with Some _ => Some t | None => None end)
  | FFun g e => bind (etype_of (fun_ctx g) e) (fun t => type_fun g t)
  end
with ttype (ctx : etype) (t : term_) : option etype :=
  match t with
  | TFactor f => ftype ctx f
  | TBin t o f => bind (ttype ctx t) (fun a =>
      bind (ftype (match o with Shl | Shr => xAnyOrdinal | _ => ctx end) f) (fun b => type_mul o a b))
  end
with stype (ctx : etype) (s : simple_) : option etype :=
  match s with
  | STerm minus t => bind (ttype ctx t) (fun a =>
      if minus then if (is16 a || is32 a) && negb (same a xLongWord) then Some a else None else Some a)
  | SBin s o t => bind (stype ctx s) (fun a =>
      bind (ttype (of_context ctx a) t) (fun b => type_add o a b))
  end
with etype_of (ctx : etype) (e : expr) : option etype :=
  match e with
  | ESimple s => bind (stype ctx s) (fun a => if asked ctx a then Some a else None)
  | ERel s1 r s2 => bind (stype ctx s1) (fun a => bind (stype ctx s2) (fun b =>
      bind (type_rel r a b) (fun c => if asked ctx c then Some c else None)))
  end.

(** ** Values.  [None]: the value of a subexpression is not a number of its type,
    or a divisor is zero, or a shift count is not between 0 and 15.  A right
    operand of another type than the left one must be a number of the left
    type, except for the addition and subtraction of 16-bit numbers. *)

Definition value_add (o : addop) (t : etype) (x y : Z) : option Z :=
  match o with
  | Plus => bind (if is32 t then limit t y else Some y) (fun y => limit t (x + y))
  | Minus => bind (if is32 t then limit t y else Some y) (fun y => limit t (x - y))
  | Or => bind (limit t y) (fun y => limit t (Z.lor x y))
  | Xor => bind (limit t y) (fun y => limit t (Z.lxor x y))
  end.
Definition value_mul (o : mulop) (t : etype) (x y : Z) : option Z :=
  bind (limit t y) (fun y =>
  match o with
  | Times => limit t (x * y)
  | Div => if y =? 0 then None else limit t (Z.quot x y)
  | Mod => if y =? 0 then None else
           bind (limit t (Z.quot x y)) (fun _ => limit t (Z.rem x y))
  | And => limit t (Z.land x y)
  | Shl => if (0 <=? y) && (y <=? 15) then limit t (x * 2 ^ y) else None
  | Shr => if (0 <=? y) && (y <=? 15) then limit t (x / 2 ^ y) else None
  end).
Definition holds_rel (r : rel) (x y : Z) : bool :=
  match r with
  | Equal => x =? y | Unequal => negb (x =? y) | Less => x <? y | LessEq => x <=? y
  | Greater => y <? x | GreaterEq => y <=? x
  end.
(** The type in which two numbers are compared *)
Definition common (a b : etype) : etype :=
  if same a b then a else xInteger.
Definition value_rel (r : rel) (t : etype) (x y : Z) : option Z :=
  bind (limit t x) (fun x => bind (limit t y) (fun y => Some (if holds_rel r x y then -1 else 0))).
Definition value_not (t : etype) (x : Z) : option Z :=
  match class_of t with
  | Some Unsigned16 => Some (65535 - x)
  | Some Unsigned32 => Some (4294967295 - x)
  | _ => Some (- x - 1)
  end.

(** [t]: the type of the argument [x] *)
Definition value_fun (g : sfun) (t : etype) (x : Z) : option Z :=
  match g with
  | FnAbs => limit t (Z.abs x)
  | FnSqr => limit t (x * x)
  | FnPred => limit t (x - 1)
  | FnSucc => limit t (x + 1)
  | FnOrd => limit xInteger x
  | FnOdd => Some (if Z.odd x then -1 else 0)
  | FnChr => limit xChar x
  end.

Section Value.
  (** The values of the variables *)
  Variable env : var -> Z.

  Fixpoint fvalue (ctx : etype) (f : factor_) : option Z :=
    match f with
    | FInt n => Some n
    | FBool b => Some (if b then -1 else 0)
    | FChar n => Some n
    | FVar x => limit (vty x) (env x)
    | FParen e => evalue xUnknown e
    | FNot f => bind (ftype ctx f) (fun t => bind (fvalue ctx f) (fun x => value_not t x))
    | FCast t e => bind (evalue xUnknown e) (fun x => limit t x)
    | FFun g e => bind (etype_of (fun_ctx g) e) (fun t =>
        bind (evalue (fun_ctx g) e) (fun x => value_fun g t x))
    end
  with tvalue (ctx : etype) (t : term_) : option Z :=
    match t with
    | TFactor f => fvalue ctx f
    | TBin t o f => bind (ttype ctx t) (fun a => bind (tvalue ctx t) (fun x =>
        bind (fvalue (match o with Shl | Shr => xAnyOrdinal | _ => ctx end) f) (fun y =>
        value_mul o a x y)))
    end
  with svalue (ctx : etype) (s : simple_) : option Z :=
    match s with
    | STerm minus t => bind (ttype ctx t) (fun a => bind (tvalue ctx t) (fun x =>
        if minus then limit a (- x) else Some x))
    | SBin s o t => bind (stype ctx s) (fun a => bind (svalue ctx s) (fun x =>
        bind (tvalue (of_context ctx a) t) (fun y => value_add o a x y)))
    end
  with evalue (ctx : etype) (e : expr) : option Z :=
    match e with
    | ESimple s => svalue ctx s
    | ERel s1 r s2 => bind (stype ctx s1) (fun a => bind (stype ctx s2) (fun b =>
        bind (svalue ctx s1) (fun x => bind (svalue ctx s2) (fun y =>
        value_rel r (common a b) x y))))
    end.
End Value.

(** The words of a number on the stack: the low-order word of a long number is
    pushed first. *)
Definition words (t : etype) (z : Z) : list Z :=
  if is32 t then [z mod 65536; (z / 65536) mod 65536] else [z mod 65536].

(** ** Variables in memory *)

(** The variable [x] can be addressed from a procedure at level [lev]. *)
Definition addressable (lev : Z) (x : var) : Prop :=
  0 <= vlev x <= lev /\ lev - vlev x <= 255 /\
  (if vlev x =? 0 then 0 <= voff x <= 65535 else -32768 <= voff x <= 32767).

Definition var_address (lev : Z) (s : st) (x : var) (a : Z) : Prop :=
  if vlev x =? 0 then global_ea s (voff x) 0 a
  else frame_ea s (lev - vlev x) (voff x mod 65536) 0 a.

(** The element of type [t] at address [a] contains the number [z]. *)
Definition contains (s : st) (t : etype) (a z : Z) : Prop :=
  match t with
  | xShortInteger => exists v, element s SByte a v /\ v = z mod 65536
  | xShortWord | xChar => exists v, element s UByte a v /\ v = z mod 65536
  | xLongInteger | xLongWord => a mod 2 = 0 /\
      rd s (a / 2) = Some (z mod 65536) /\ rd s (a / 2 + 1) = Some ((z / 65536) mod 65536)
  | _ => rd s (a / 2) = Some (z mod 65536)
  end.

(** The variable [x] contains [z] in [s] and in every state that differs from [s]
    above the top of the stack only: the variable, and the static links that lead
    to it, are in the used part of the stack. *)
Definition located (lev : Z) (s : st) (x : var) (z : Z) : Prop :=
  forall s', same_regs s s' -> (forall i, i <= sp s / 2 -> rd s' i = rd s i) ->
  exists a, var_address lev s' x a /\ a + size_of (vty x) <= 2 * (sp s / 2) + 2 /\
            contains s' (vty x) a z.

(** The variables of an expression *)
Fixpoint fvars (f : factor_) : list var :=
  match f with
  | FVar x => [x] | FParen e => evars e | FNot f => fvars f | FCast _ e => evars e | FFun _ e => evars e | _ => []
  end
with tvars (t : term_) : list var :=
  match t with TFactor f => fvars f | TBin t _ f => tvars t ++ fvars f end
with svars (s : simple_) : list var :=
  match s with STerm _ t => tvars t | SBin s _ t => svars s ++ tvars t end
with evars (e : expr) : list var :=
  match e with ESimple s => svars s | ERel s1 _ s2 => svars s1 ++ svars s2 end.

(** [s'] results from [s] by pushing the words [ws].  Words above the new top of
    the stack may have changed. *)
Definition pushed (s s' : st) (ws : list Z) : Prop :=
  same_regs s s' /\
  sp s' = sp s + 2 * Z.of_nat (length ws) /\
  (forall k v, nth_error ws k = Some v -> rd s' (sp s / 2 + 1 + Z.of_nat k) = Some v) /\
  (forall i, i <= sp s / 2 -> rd s' i = rd s i).

(** [code] pushes [ws], if there is room for [k] words, whenever the variables
    [xs] have the values [env]. *)
Definition computes (lev : Z) (code : list opType) (k : Z) (xs : list var) (env : var -> Z) (ws : list Z) : Prop :=
  forall s, room s k -> (forall x, In x xs -> located lev s x (env x)) ->
  exists s', exec_list code s = Ok s' /\ pushed s s' ws.

(** ** What the compiler accepts: a laxer type system.  It differs from the types
    above in the right operand of a multiplying operator, which may have any
    type, in constants and in the types that have an order. *)

Definition lax_const (ctx : etype) (n : Z) : etype :=
  if is32 ctx then ctx
  else if n <=? 65535 then
    if same ctx xShortInteger && (n <=? 255) then xShortInteger
    else if same ctx xShortWord then xShortWord else xInteger
  else xLongInteger.
Definition lax_mul (o : mulop) (a b : etype) : option etype :=
  match o with
  | Times | Div | Mod => if is16 a || is32 a then Some a else None
  | And => if is16 a || is32 a || is_logical a then Some a else None
  | Shl | Shr => if same a b && is16 a then Some a else None
  end.
Definition lax_add (o : addop) (a b : etype) : option etype :=
  match o with
  | Plus | Minus => if mixable a b then Some a else None
  | Or | Xor => if mixable a b || (is_logical a && is_logical b) then Some a else None
  end.
(** An ordered comparison of characters or truth values has the type of its
    operands. *)
Definition lax_rel (r : rel) (a b : etype) : option etype :=
  if is16 a && is16 b then
    if same a b || (same a xInteger && negb (same b xWord)) || (negb (same a xWord) && same b xInteger)
    then Some xBoolean else None
  else if same a b then
    match r with
    | Equal | Unequal => Some xBoolean
    | _ => if is32 a then Some xBoolean else Some a
    end
  else None.

Definition lax_fun (g : sfun) (t : etype) : option etype :=
  match g with
  | FnAbs => if same t xInteger then Some xInteger else None
  | FnSqr => if is16 t then Some t else None
  | FnPred | FnSucc => Some t
  | FnOrd => Some xInteger
  | FnOdd => Some xBoolean
  | FnChr => Some xChar
  end.

Fixpoint flax (ctx : etype) (f : factor_) : option etype :=
  match f with
  | FInt n => Some (lax_const ctx n)
  | FBool _ => Some xBoolean
  | FChar _ => Some xChar
  | FVar x => Some (vty x)
  | FParen e => elax xUnknown e
  | FNot f => bind (flax ctx f) (fun t => if is16 t || is32 t || is_logical t then Some t else None)
  | FCast t e => bind (elax xUnknown e) (fun _ => Some t)
  | FFun g e => bind (elax (fun_ctx g) e) (fun t => lax_fun g t)
  end
with tlax (ctx : etype) (t : term_) : option etype :=
  match t with
  | TFactor f => flax ctx f
  | TBin t o f => bind (tlax ctx t) (fun a =>
      bind (flax (match o with Shl | Shr => xAnyOrdinal | _ => ctx end) f) (fun b => lax_mul o a b))
  end
with slax (ctx : etype) (s : simple_) : option etype :=
  match s with
  | STerm minus t => bind (tlax ctx t) (fun a =>
      if minus then if is16 a || is32 a then Some a else None else Some a)
  | SBin s o t => bind (slax ctx s) (fun a =>
      bind (tlax (of_context ctx a) t) (fun b => lax_add o a b))
  end
with elax (ctx : etype) (e : expr) : option etype :=
  match e with
  | ESimple s => bind (slax ctx s) (fun a => if asked ctx a then Some a else None)
  | ERel s1 r s2 => bind (slax ctx s1) (fun a => bind (slax ctx s2) (fun b =>
      bind (lax_rel r a b) (fun c => if asked ctx c then Some c else None)))
  end.

(** Tokens as the tokenizer delivers them: the truth values are -1 and 0 (as
    uint32_t), and the size of a variable is that of its type. *)
Definition wf_tok (t : tok) : Prop :=
  (tk t = tBOOLEAN_CONST -> tval t = 4294967295 \/ tval t = 0) /\
  (forall k, ~ In k [xUnknown; xAnyOrdinal] -> tk t = kind_of k -> vSize (tsym t) = size_of k).
