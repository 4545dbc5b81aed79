(** Specification of constant expressions: their grammar and their values.
    Independent of the functions of ConstModel.v: only tokens and the place of the
    result are shared. *)

From Coq Require Import ZArith Bool List.
From Verif Require Import ExprModel StmtModel ExprSpec ConstModel.
Import ListNotations.
Open Scope Z_scope.

(** ** Abstract syntax *)

Inductive cadd := CPlus | CMinus | COr | CSymmetric.
Inductive crel := CRel (r : rel) | CIn.
Inductive sign := Unsigned | Positive | Negative.
(** [RealFun]: a function whose result is a real number *)
Inductive cfun := Abs | Sqr | Pred | Succ | Chr | Ord | Odd | RealFun.
Inductive clit := LInt (n : Z) | LChar (n : Z) | LBool (b : bool) | LScalar.
Inductive cset := One (a : clit) | Range (a b : clit).

Inductive cfactor :=
| KLit (a : clit) | KNot (f : cfactor) | KSet (l : list cset) | KFun (f : cfun) (e : cexpr)
with cterm := KFactor (f : cfactor) | KMul (t : cterm) (o : mulop) (f : cfactor)
with csimple := KTerm (s : sign) (t : cterm) | KAdd (s : csimple) (o : cadd) (t : cterm)
with cexpr := KSimple (s : csimple) | KRel (s1 : csimple) (r : crel) (s2 : csimple).

Scheme cfactor_mut := Induction for cfactor Sort Prop
  with cterm_mut := Induction for cterm Sort Prop
  with csimple_mut := Induction for csimple Sort Prop
  with cexpr_mut := Induction for cexpr Sort Prop.
Combined Scheme constant_ind from cfactor_mut, cterm_mut, csimple_mut, cexpr_mut.

(** ** Concrete syntax: the forms given in the comments of pas_constexpr.c *)

Definition spells_lit (t : tok) (a : clit) : Prop :=
  match a with
  | LInt n => tk t = tINT_CONST /\ tval t = n
  | LChar n => tk t = tCHAR_CONST /\ tval t = n
  | LBool b => tk t = tBOOLEAN_CONST /\ tval t = (if b then 4294967295 else 0)
  | LScalar => tk t = sSCALAR_OBJECT
  end.
Definition same_kind (a b : clit) : bool :=
  match a, b with LInt _, LInt _ | LChar _, LChar _ | LBool _, LBool _ | LScalar, LScalar => true | _, _ => false end.
Definition spells_cadd (t : tok) (o : cadd) : Prop :=
  tk t = match o with CPlus => tPLUS | CMinus => tMINUS | COr => tOR | CSymmetric => tSYMDIFF end.
Definition spells_cmul (t : tok) (o : mulop) : Prop :=
  tk t = match o with Times => tMUL | Div => tDIV | Mod => tMOD | And => tAND | Shl => tSHL | Shr => tSHR end.
Definition spells_crel (t : tok) (r : crel) : Prop := match r with CRel r => spells_rel t r | CIn => tk t = tIN end.
Definition spells_fun (t : tok) (f : cfun) : Prop :=
  tk t = tSTDFUNC /\
  match f with
  | Abs => tsub t = txABS | Sqr => tsub t = txSQR | Pred => tsub t = txPRED | Succ => tsub t = txSUCC
  | Chr => tsub t = txCHR | Ord => tsub t = txORD | Odd => tsub t = txODD
  | RealFun => In (tsub t) [txSQRT; txSIN; txCOS; txARCTAN; txLN; txEXP]
  end.

Inductive gsubset : list tok -> cset -> Prop :=
| g_one t a : spells_lit t a -> gsubset [t] (One a)
| g_range t a d u b : spells_lit t a -> tk d = tSUBRANGE -> spells_lit u b -> same_kind a b = true ->
    gsubset [t; d; u] (Range a b).
Inductive gsubsets : list tok -> list cset -> Prop :=
| g_last ts x : gsubset ts x -> gsubsets ts [x]
| g_more ts x d us l : gsubset ts x -> tk d = tCOMMA -> gsubsets us l -> gsubsets (ts ++ d :: us) (x :: l).

Inductive gcfactor : list tok -> cfactor -> Prop :=
| g_lit t a : spells_lit t a -> a <> LScalar -> gcfactor [t] (KLit a)
| g_cnot a ts f : tk a = tNOT -> gcfactor ts f -> gcfactor (a :: ts) (KNot f)
| g_empty a b : tk a = tLBRACKET -> tk b = tRBRACKET -> gcfactor [a; b] (KSet [])
| g_set a ts l b : tk a = tLBRACKET -> gsubsets ts l -> tk b = tRBRACKET -> gcfactor (a :: ts ++ [b]) (KSet l)
| g_fun a f b ts e d : spells_fun a f -> tk b = tLPAREN -> gcexpr ts e -> tk d = tRPAREN ->
    gcfactor (a :: b :: ts ++ [d]) (KFun f e)
with gcterm : list tok -> cterm -> Prop :=
| g_cfactor ts f : gcfactor ts f -> gcterm ts (KFactor f)
| g_cmul ts t a o us f : gcterm ts t -> spells_cmul a o -> gcfactor us f -> gcterm (ts ++ a :: us) (KMul t o f)
with gcsimple : list tok -> csimple -> Prop :=
| g_cterm ts t : gcterm ts t -> gcsimple ts (KTerm Unsigned t)
| g_cplus a ts t : tk a = tPLUS -> gcterm ts t -> gcsimple (a :: ts) (KTerm Positive t)
| g_cminus a ts t : tk a = tMINUS -> gcterm ts t -> gcsimple (a :: ts) (KTerm Negative t)
| g_cadd ts s a o us t : gcsimple ts s -> spells_cadd a o -> gcterm us t -> gcsimple (ts ++ a :: us) (KAdd s o t)
with gcexpr : list tok -> cexpr -> Prop :=
| g_csimple ts s : gcsimple ts s -> gcexpr ts (KSimple s)
| g_crel ts s1 a r us s2 : gcsimple ts s1 -> spells_crel a r -> gcsimple us s2 -> gcexpr (ts ++ a :: us) (KRel s1 r s2).

Scheme gcfactor_mut := Induction for gcfactor Sort Prop
  with gcterm_mut := Induction for gcterm Sort Prop
  with gcsimple_mut := Induction for gcsimple Sort Prop
  with gcexpr_mut := Induction for gcexpr Sort Prop.
Combined Scheme constants_ind from gcfactor_mut, gcterm_mut, gcsimple_mut, gcexpr_mut.

(** ** Values *)

(** A set is given by its members. *)
Inductive val := VI (z : Z) | VC (z : Z) | VB (b : bool) | VS (f : Z -> bool).

Definition int_value (z : Z) : option val :=
  if (-2147483648 <=? z) && (z <=? 2147483647) then Some (VI z) else None.
Definition char_value (z : Z) : option val := if (0 <=? z) && (z <=? 255) then Some (VC z) else None.

(** The ordinal number of a literal *)
Definition ordinal (a : clit) : option Z :=
  match a with LInt n | LChar n => Some n | LBool b => Some (if b then 1 else 0) | LScalar => None end.

(** [lo]: the least element of the base type; a set has at most 64 elements. *)

Definition in_base (lo z : Z) : bool := (lo <=? z) && (z <=? lo + 63) && (0 <=? z) && (z <=? 65535).
Definition element_of (lo : Z) (a : clit) : option Z := bind (ordinal a) (fun z => if in_base lo z then Some z else None).
(** The first and last element of a part of a set; none if the first is greater *)
Definition bounds (lo : Z) (x : cset) : option (Z * Z) :=
  match x with
  | One a => bind (element_of lo a) (fun z => Some (z, z))
  | Range a b => bind (element_of lo a) (fun y => bind (element_of lo b) (fun z => Some (y, z)))
  end.
Fixpoint members (lo : Z) (l : list cset) : option (Z -> bool) :=
  match l with
  | [] => Some (fun _ => false)
  | x :: l => bind (bounds lo x) (fun p => bind (members lo l) (fun f =>
      Some (fun z => ((fst p <=? z) && (z <=? snd p)) || f z)))
  end.
Definition base (lo : Z) : list Z := map (fun k => lo + Z.of_nat k) (seq 0 64).

Definition value_cadd (o : cadd) (a b : val) : option val :=
  match o, a, b with
  | CPlus, VI x, VI y => int_value (x + y)
  | CMinus, VI x, VI y => int_value (x - y)
  | COr, VI x, VI y => Some (VI (Z.lor x y))
  | COr, VB x, VB y => Some (VB (x || y))
  | CPlus, VS f, VS g => Some (VS (fun z => f z || g z))
  | CMinus, VS f, VS g => Some (VS (fun z => f z && negb (g z)))
  | CSymmetric, VS f, VS g => Some (VS (fun z => xorb (f z) (g z)))
  | _, _, _ => None
  end.
Definition value_cmul (o : mulop) (a b : val) : option val :=
  match o, a, b with
  | Times, VI x, VI y => int_value (x * y)
  | Times, VS f, VS g => Some (VS (fun z => f z && g z))
  | Div, VI x, VI y => if y =? 0 then None else int_value (Z.quot x y)
  | Mod, VI x, VI y => if y =? 0 then None else bind (int_value (Z.quot x y)) (fun _ => Some (VI (Z.rem x y)))
  | And, VI x, VI y => Some (VI (Z.land x y))
  | And, VB x, VB y => Some (VB (x && y))
  | Shl, VI x, VI y => if (0 <=? x) && (0 <=? y) && (y <=? 31) then int_value (x * 2 ^ y) else None
  | Shr, VI x, VI y => if (0 <=? x) && (0 <=? y) && (y <=? 31) then Some (VI (x / 2 ^ y)) else None
  | _, _, _ => None
  end.
Definition value_sign (s : sign) (a : val) : option val :=
  match s, a with
  | Unsigned, _ => Some a
  | Positive, VI x => Some (VI x)
  | Negative, VI x => int_value (- x)
  | _, _ => None
  end.
Definition value_cnot (a : val) : option val :=
  match a with VI x => Some (VI (- x - 1)) | VB b => Some (VB (negb b)) | _ => None end.
Definition value_fun (f : cfun) (a : val) : option val :=
  match f, a with
  | Abs, VI x => int_value (Z.abs x)
  | Sqr, VI x => int_value (x * x)
  | Pred, VI x => int_value (x - 1)
  | Pred, VC x => char_value (x - 1)
  | Pred, VB true => Some (VB false)
  | Succ, VI x => int_value (x + 1)
  | Succ, VC x => char_value (x + 1)
  | Succ, VB false => Some (VB true)
  | Chr, VI x => char_value x
  | Ord, VI x | Ord, VC x => Some (VI x)
  | Ord, VB b => Some (VI (if b then 1 else 0))
  | Odd, VI x => Some (VB (Z.odd x))
  | _, _ => None
  end.
Definition value_crel (lo : Z) (r : crel) (a b : val) : option val :=
  match r, a, b with
  | CRel r, VI x, VI y | CRel r, VC x, VC y => Some (VB (holds_rel r x y))
  | CRel r, VB x, VB y => Some (VB (holds_rel r (if x then 1 else 0) (if y then 1 else 0)))
  | CRel Equal, VS f, VS g => Some (VB (forallb (fun z => eqb (f z) (g z)) (base lo)))
  | CRel Unequal, VS f, VS g => Some (VB (negb (forallb (fun z => eqb (f z) (g z)) (base lo))))
  | CRel LessEq, VS f, VS g => Some (VB (forallb (fun z => implb (f z) (g z)) (base lo)))
  | CIn, VI x, VS f | CIn, VC x, VS f => Some (VB (f x))
  | CIn, VB b, VS f => Some (VB (f (if b then 1 else 0)))
  | _, _, _ => None
  end.
Definition value_lit (a : clit) : option val :=
  match a with LInt n => int_value n | LChar n => char_value n | LBool b => Some (VB b) | LScalar => None end.

(** The base type of a set in an argument is not known; it starts at 0. *)
Fixpoint fval (lo : Z) (f : cfactor) : option val :=
  match f with
  | KLit a => value_lit a
  | KNot f => bind (fval lo f) value_cnot
  | KSet l => bind (members lo l) (fun m => Some (VS m))
  | KFun f e => bind (cval 0 e) (value_fun f)
  end
with tval_of (lo : Z) (t : cterm) : option val :=
  match t with
  | KFactor f => fval lo f
  | KMul t o f => bind (tval_of lo t) (fun a => bind (fval lo f) (value_cmul o a))
  end
with sval (lo : Z) (s : csimple) : option val :=
  match s with
  | KTerm g t => bind (tval_of lo t) (value_sign g)
  | KAdd s o t => bind (sval lo s) (fun a => bind (tval_of lo t) (value_cadd o a))
  end
with cval (lo : Z) (e : cexpr) : option val :=
  match e with
  | KSimple s => sval lo s
  | KRel s1 r s2 => bind (sval lo s1) (fun a => bind (sval lo s2) (value_crel lo r a))
  end.

(** ** What the compiler gets right.  Excluded: every relation, Odd, the ordinal
    functions of truth values, Or of integers; differences and intersections of
    sets and more than two sets in a sum; true as an element of a set; some ranges
    of elements. *)

Definition is_set (v : option val) : bool := match v with Some (VS _) => true | _ => false end.
Definition is_bool (v : option val) : bool := match v with Some (VB _) => true | _ => false end.
Definition is_int (v : option val) : bool := match v with Some (VI _) => true | _ => false end.

(** A range [y..z], as bit numbers: empty; within a word; or starting in the first word,
    if it covers the second word, or as much of it as of the first one, or less *)
Definition good_range (y z : Z) : bool :=
  (z <? y) || (y / 16 =? z / 16) || ((y <? 16) && ((31 <=? z) || (z - 16 + 1 <=? 16 - y))).
(** None of the elements [y..z] is in the words of the bits [a..b]. *)
Definition apart (a b y z : Z) : bool := (z / 16 <? a / 16) || (b / 16 <? y / 16).
Definition is_true (a : clit) : bool := match a with LBool b => b | _ => false end.
(** [before]: the parts in front *)
Fixpoint good_parts (lo : Z) (before : list (Z * Z)) (l : list cset) : bool :=
  match l with
  | [] => true
  | x :: l =>
    match bounds lo x with
    | None => false
    | Some p =>
      let a := fst p - lo in
      let b := snd p - lo in
      match x with
      | One y => negb (is_true y)
      | Range y z => negb (is_true y) && negb (is_true z) && good_range a b && forallb (fun q => apart a b (fst q) (snd q)) before
      end && good_parts lo ((a, b) :: before) l
    end
  end.

Fixpoint fgood (lo : Z) (f : cfactor) : bool :=
  match f with
  | KLit _ => true
  | KNot f => fgood lo f
  | KSet l => good_parts lo [] l
  | KFun f e => cgood 0 e && match f with
                           | Odd | RealFun => false
                           | Ord | Pred | Succ => negb (is_bool (cval 0 e))
                           | _ => true
                           end
  end
with tgood (lo : Z) (t : cterm) : bool :=
  match t with
  | KFactor f => fgood lo f
  | KMul t o f => tgood lo t && fgood lo f && negb (is_set (tval_of lo t))
  end
with sgood (lo : Z) (s : csimple) : bool :=
  match s with
  | KTerm _ t => tgood lo t
  | KAdd s o t => sgood lo s && tgood lo t &&
      match o with
      | COr => negb (is_int (sval lo s))
      | CMinus => negb (is_set (sval lo s))
      | _ => negb (is_set (sval lo s)) || match s with KTerm _ _ => true | _ => false end
      end
  end
with cgood (lo : Z) (e : cexpr) : bool := match e with KSimple s => sgood lo s | KRel _ _ _ => false end.

(** The words [l] represent the set [f]. *)
Definition set_words (lo : Z) (f : Z -> bool) (l : list Z) : Prop :=
  length l = 4%nat /\ Forall (fun w => 0 <= w <= 65535) l /\
  forall k, 0 <= k < 64 -> Z.testbit (nth (Z.to_nat (k / 16)) l 0) (k mod 16) = f (lo + k).

(** The value [v], given by a token, a number and the words of a set *)
Definition represents (lo : Z) (v : val) (t i : Z) (l : list Z) : Prop :=
  match v with
  | VI z => t = tINT_CONST /\ i = z
  | VC z => t = tCHAR_CONST /\ i = z
  | VB b => t = tBOOLEAN_CONST /\ i = (if b then -1 else 0)
  | VS f => t = tSET_CONST /\ set_words lo f l
  end.
Definition result_is (lo : Z) (v : val) (s : cst) : Prop := represents lo v (ktok s) (kint s) (kset s).

(** [c'] is [c] with other tokens. *)
Definition only_tokens (c c' : comp) (ts : list tok) : Prop :=
  c' = mkComp ts (out c) (errs c) (g_label c) (g_level c) (g_continue c) (g_break c) (g_adjust c).

(** ** What the compiler accepts *)

(** The kind of the result of an accepted constant expression, as a token: None if it
    is not accepted.  A real function is taken for one with an integer result. *)
Definition one_of (l : list Z) (t : Z) : option Z := if existsb (Z.eqb t) l then Some t else None.
Definition lax_fun (f : cfun) (t : Z) : option Z :=
  match f with
  | Abs | Sqr | RealFun => one_of [tINT_CONST] t
  | Pred | Succ => one_of [tINT_CONST; tCHAR_CONST; tBOOLEAN_CONST] t
  | Chr => bind (one_of [tINT_CONST] t) (fun _ => Some tCHAR_CONST)
  | Ord => bind (one_of [tINT_CONST; tCHAR_CONST; tBOOLEAN_CONST] t) (fun _ => Some tINT_CONST)
  | Odd => None
  end.
Definition lax_cmul (o : mulop) (t u : Z) : option Z :=
  if t =? u then one_of match o with And => [tINT_CONST; tBOOLEAN_CONST] | _ => [tINT_CONST] end t else None.
Definition lax_cadd (o : cadd) (t u : Z) : option Z :=
  if t =? u then one_of match o with
                        | CPlus | CMinus => [tINT_CONST; tSET_CONST]
                        | COr => [tINT_CONST; tBOOLEAN_CONST]
                        | CSymmetric => [tSET_CONST]
                        end t else None.
Fixpoint fclax (f : cfactor) : option Z :=
  match f with
  | KLit (LInt _) => Some tINT_CONST
  | KLit (LChar _) => Some tCHAR_CONST
  | KLit (LBool _) => Some tBOOLEAN_CONST
  | KLit LScalar => None
  | KNot f => bind (fclax f) (one_of [tINT_CONST; tBOOLEAN_CONST])
  | KSet _ => Some tSET_CONST
  | KFun f e => bind (clax e) (lax_fun f)
  end
with tclax (t : cterm) : option Z :=
  match t with
  | KFactor f => fclax f
  | KMul t o f => bind (tclax t) (fun a => bind (fclax f) (lax_cmul o a))
  end
with sclax (s : csimple) : option Z :=
  match s with
  | KTerm Unsigned t => tclax t
  | KTerm _ t => bind (tclax t) (one_of [tINT_CONST])
  | KAdd s o t => bind (sclax s) (fun a => bind (tclax t) (lax_cadd o a))
  end
with clax (e : cexpr) : option Z := match e with KSimple s => sclax s | KRel _ _ _ => None end.

(** Tokens as the tokenizer delivers them, without Odd *)
Definition wf_const (t : tok) : Prop := wf_tok t /\ (tk t = tSTDFUNC -> tsub t <> txODD).
