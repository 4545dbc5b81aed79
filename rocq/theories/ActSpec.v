(** Specification of calls: parameters, where they lie, argument lists.
    Independent of the functions of ActModel.v. *)

From Coq Require Import ZArith Bool List.
From Verif Require Import State Opcodes Machine VmSpec ExprModel ExprSpec StmtSpec ActModel.
Import ListNotations.
Open Scope Z_scope.

(** A parameter is passed by value or by reference. *)
Inductive parm := ByValue (t : etype) | ByVar (t : etype).

(** The number of bytes it takes on the stack: whole words.  By reference it is
    an address. *)
Definition slot (p : parm) : Z :=
  match p with
  | ByValue (xLongInteger | xLongWord) => 4
  | _ => 2
  end.
Definition slots (ps : list parm) : Z := fold_right (fun p z => slot p + z) 0 ps.

(** The parameters as variables of a procedure at level [k]: the last one lies
    directly in front of the frame. *)
Definition parm_var (k : Z) (p : parm) (behind : list parm) : var :=
  mkVar (match p with ByValue t => t | ByVar _ => xWord end) k (- slots (p :: behind)).
Fixpoint parm_vars (k : Z) (ps : list parm) : list var :=
  match ps with [] => [] | p :: ps => parm_var k p ps :: parm_vars k ps end.
(** The result of a function lies in front of its parameters. *)
Definition result_var (k : Z) (t : etype) (ps : list parm) : var := mkVar t k (- slots (ByValue t :: ps)).

(** How the compiler describes them; 0x55: a subrange of the integers *)
Definition described (f : formal) (p : parm) : Prop :=
  match p with
  | ByValue t => class_of t <> None /\ (fKind f = kind_of t \/ t = xInteger /\ fKind f = 0x55)
  | ByVar t => class_of t <> None /\ fKind f = 0x5a /\ (fType f = Some (kind_of t) \/ t = xInteger /\ fType f = Some 0x55)
  end.

(** ** Arguments *)

Inductive arg := AExpr (e : expr) | AVar (x : var).

(** The tokens [ts] are an argument for the parameter. *)
Inductive garg (lev : Z) : parm -> list tok -> arg -> Prop :=
| ga_value t ts e : gexpr ts e -> etype_of t e = Some t -> (forall x, In x (evars e) -> addressable lev x) ->
    garg lev (ByValue t) ts (AExpr e)
| ga_var t a x : spells_var a x -> vty x = t -> addressable lev x -> garg lev (ByVar t) [a] (AVar x).

(** a1, …, an *)
Inductive gargs (lev : Z) : list parm -> list tok -> list arg -> Prop :=
| gs_one p ts a : garg lev p ts a -> gargs lev [p] ts [a]
| gs_more p ts a b ps us l : garg lev p ts a -> tk b = 0x2c -> gargs lev ps us l -> gargs lev (p :: ps) (ts ++ b :: us) (a :: l).

(** The argument list, with its parentheses; they may be absent or empty if there
    are no parameters. *)
Inductive glist (lev : Z) : list parm -> list tok -> list arg -> Prop :=
| gl_none : glist lev [] [] []
| gl_empty a b : tk a = tLPAREN -> tk b = tRPAREN -> glist lev [] [a; b] []
| gl_args a ps ts l b : tk a = tLPAREN -> gargs lev ps ts l -> tk b = tRPAREN -> glist lev ps (a :: ts ++ [b]) l.

(** What is accepted: expressions that have the type of the parameter in the lax
    sense of ExprSpec.v, and variables, in any number of parentheses *)
Inductive lvar : list tok -> var -> Prop :=
| lv_name a x : spells_var a x -> lvar [a] x
| lv_paren a ts b x : tk a = tLPAREN -> lvar ts x -> tk b = tRPAREN -> lvar (a :: ts ++ [b]) x.
Inductive larg : parm -> list tok -> arg -> Prop :=
| la_value t ts e : gexpr ts e -> elax t e = Some t -> larg (ByValue t) ts (AExpr e)
| la_var t ts x : lvar ts x -> vty x = t -> larg (ByVar t) ts (AVar x).
Inductive largs : list parm -> list tok -> list arg -> Prop :=
| ls_one p ts a : larg p ts a -> largs [p] ts [a]
| ls_more p ts a b ps us l : larg p ts a -> tk b = 0x2c -> largs ps us l -> largs (p :: ps) (ts ++ b :: us) (a :: l).
Inductive llist : list parm -> list tok -> list arg -> Prop :=
| ll_none : llist [] [] []
| ll_empty a b : tk a = tLPAREN -> tk b = tRPAREN -> llist [] [a; b] []
| ll_args a ps ts l b : tk a = tLPAREN -> largs ps ts l -> tk b = tRPAREN -> llist ps (a :: ts ++ [b]) l.

(** ** Values *)

(** The variable [x] has the address [a] in [s] and in every state that differs
    from [s] above the top of the stack only. *)
Definition addressed (lev : Z) (s : st) (x : var) (a : Z) : Prop :=
  forall s', same_regs s s' -> (forall i, i <= sp s / 2 -> rd s' i = rd s i) -> var_address lev s' x a.

(** In [s], the variables that the arguments consist of have the values [env] and
    the addresses [adr]. *)
Definition provided (lev : Z) (s : st) (env adr : var -> Z) (a : arg) : Prop :=
  match a with
  | AExpr e => forall x, In x (evars e) -> located lev s x (env x)
  | AVar x => addressed lev s x (adr x)
  end.

(** [v] is what the argument [a] is for the parameter [p]: the value of the
    expression, which the parameter can hold, or the address of the variable *)
Definition passed (env adr : var -> Z) (p : parm) (a : arg) (v : Z) : Prop :=
  match p, a with
  | ByValue t, AExpr e => evalue env t e = Some v /\ storable t v = true
  | ByVar _, AVar x => v = adr x
  | _, _ => False
  end.
Inductive all_passed (env adr : var -> Z) : list parm -> list arg -> list Z -> Prop :=
| ap_nil : all_passed env adr [] [] []
| ap_cons p ps a l v vs : passed env adr p a v -> all_passed env adr ps l vs -> all_passed env adr (p :: ps) (a :: l) (v :: vs).

(** Every parameter contains what was passed. *)
Definition received (k : Z) (s : st) (ps : list parm) (vs : list Z) : Prop :=
  Forall2 (fun x v => located k s x v) (parm_vars k ps) vs.

(** ** The machine *)

(** Registers are 16-bit words; the stack is aligned. *)
Definition regular (s : st) : Prop :=
  0 <= fp s < 65536 /\ 0 <= csp s < 65536 /\ 0 <= lsp s < 256 /\ sp s mod 2 = 0.

(** When the procedure returns, the stack pointer is again where it was on entry,
    and the frame header is intact. *)
Definition may_return (s1 s2 : st) : Prop :=
  cf s2 = cf s1 /\ sp s2 = sp s1 /\ forall i, fp s1 / 2 <= i < fp s1 / 2 + 5 -> rd s2 i = rd s1 i.

(** The instructions around the code of the arguments: the call, the removal of
    the parameters, the container of the result *)
Definition call_op (p : proc) : opType := mkOp oPCAL (pLevel p + 1) (pLabel p).
Definition release (z : Z) : list opType := if z =? 0 then [] else [mkOp oINDS 0 ((- z) mod 65536)].
Definition container (t : etype) : opType := mkOp oINDS 0 (slot (ByValue t)).

(** The code [before] and a call leave every parameter with what was passed for
    it, and nothing that was on the stack changed; when the procedure returns, [back]
    leaves the stack as large as it was, or larger by [extra] bytes, and the
    registers as they were, and execution continues behind. *)
Definition calls (lev : Z) (p : proc) (before back : list opType) (extra : Z) (ps : list parm) (l : list arg) (k : Z)
  (more : st -> st -> st -> st -> Prop) : Prop :=
  forall env adr vs s, all_passed env adr ps l vs -> room s (k + 5) -> regular s -> Forall (provided lev s env adr) l ->
  exists s1, exec_list before s = Ok s1 /\ same_regs s s1 /\ (forall i, i <= sp s / 2 -> rd s1 i = rd s i) /\
  forall s2, exec_insn s1 (call_op p) = Ok s2 ->
    pc s2 = pLabel p /\ lsp s2 = pLevel p + 1 /\ received (pLevel p + 1) s2 ps vs /\ (forall i, i <= sp s / 2 -> rd s2 i = rd s i) /\
    cf s2 = cf s /\
    forall s3, may_return s2 s3 ->
    exists s4, exec_list (mkOp oRET 0 0 :: back) s3 = Ok s4 /\
      cf s4 = cf s /\ csp s4 = csp s /\ fp s4 = fp s /\ lsp s4 = lsp s /\ sp s4 = sp s + extra /\
      pc s4 = (pc s1 + 4 + 3 * Z.of_nat (length back)) mod 65536 /\ (forall i, rd s4 i = rd s3 i) /\
      more s s2 s3 s4.

(** The value of the function, in the container behind what was on the stack; of
    a result of one byte only the low-order byte of the word *)
Definition result_left (p : proc) (t : etype) (ps : list parm) (s s2 s3 s4 : st) : Prop :=
  forall v, fp s3 = fp s2 -> located (pLevel p + 1) s3 (result_var (pLevel p + 1) t ps) v ->
  if size_of t =? 1 then exists w, rd s4 (sp s / 2 + 1) = Some w /\ w mod 256 = v mod 256
  else forall j w, nth_error (words t v) j = Some w -> rd s4 (sp s / 2 + 1 + Z.of_nat j) = Some w.
