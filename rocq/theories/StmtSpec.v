(** What statements are and what they mean. *)

From Coq Require Import ZArith Bool List Lia.
From Verif Require Import Words State Opcodes Machine VmSpec OptSpec EncodeModel ExprModel ExprSpec StmtModel.
Import ListNotations.
Open Scope Z_scope.

(** ** Abstract syntax *)

Inductive kconst := KInt (n : Z) | KChar (n : Z) | KBool (b : bool).

Inductive stmt :=
| SEmpty
| SAssign (x : var) (e : expr)
| SIf (e : expr) (s : stmt)
| SIfElse (e : expr) (s1 s2 : stmt)
| SWhile (e : expr) (s : stmt)
| SRepeat (ss : stmts) (e : expr)
| SFor (x : var) (down : bool) (e1 e2 : expr) (s : stmt)
| SCase (e : expr) (cs : caselist)
| SBlock (ss : stmts)
| SBreak
| SContinue
with stmts := SOne (s : stmt) | SMore (s : stmt) (ss : stmts)
with caselist := CEnd | CCase (ks : list kconst) (s : stmt) (cs : caselist) | CElse (s : stmt).

Scheme stmt_mut := Induction for stmt Sort Prop
  with stmts_mut := Induction for stmts Sort Prop
  with caselist_mut := Induction for caselist Sort Prop.
Combined Scheme stmt_syntax_ind from stmt_mut, stmts_mut, caselist_mut.

(** ** Concrete syntax *)

Definition spells_const (t : tok) (k : kconst) : Prop :=
  match k with
  | KInt n => tk t = tINT_CONST /\ tval t = n
  | KChar n => tk t = tCHAR_CONST /\ tval t = n
  | KBool b => tk t = tBOOLEAN_CONST /\ tval t = (if b then 4294967295 else 0)
  end.
Inductive gconsts : list tok -> list kconst -> Prop :=
| gs_const1 t k : spells_const t k -> gconsts [t] [k]
| gs_consts t k a ts ks : spells_const t k -> tk a = tCOMMA -> gconsts ts ks -> gconsts (t :: a :: ts) (k :: ks).

(** The index tells whether the statement ends with an IF without ELSE, which a
    following ELSE would belong to. *)
Inductive gstmt : bool -> list tok -> stmt -> Prop :=
| gs_empty : gstmt false [] SEmpty
| gs_assign t a ts x e : spells_var t x -> tk a = tASSIGN -> gexpr ts e -> gstmt false (t :: a :: ts) (SAssign x e)
| gs_if a ts e b us s o : tk a = tIF -> gexpr ts e -> tk b = tTHEN -> gstmt o us s ->
    gstmt true (a :: ts ++ b :: us) (SIf e s)
| gs_ifelse a ts e b us s1 d vs s2 o : tk a = tIF -> gexpr ts e -> tk b = tTHEN -> gstmt false us s1 ->
    tk d = tELSE -> gstmt o vs s2 -> gstmt o (a :: ts ++ b :: us ++ d :: vs) (SIfElse e s1 s2)
| gs_while a ts e b us s o : tk a = tWHILE -> gexpr ts e -> tk b = tDO -> gstmt o us s ->
    gstmt o (a :: ts ++ b :: us) (SWhile e s)
| gs_repeat a us ss b ts e : tk a = tREPEAT -> gstmts us ss -> tk b = tUNTIL -> gexpr ts e ->
    gstmt false (a :: us ++ b :: ts) (SRepeat ss e)
| gs_for a t b ts x e1 d (down : bool) us e2 f vs s o : tk a = tFOR -> spells_var t x -> tk b = tASSIGN -> gexpr ts e1 ->
    tk d = (if down then tDOWNTO else tTO) -> gexpr us e2 -> tk f = tDO -> gstmt o vs s ->
    gstmt o (a :: t :: b :: ts ++ d :: us ++ f :: vs) (SFor x down e1 e2 s)
| gs_case a ts e b us cs : tk a = tCASE -> gexpr ts e -> tk b = tOF -> gcases us cs ->
    gstmt false (a :: ts ++ b :: us) (SCase e cs)
| gs_block a us ss b : tk a = tBEGIN -> gstmts us ss -> tk b = tEND -> gstmt false (a :: us ++ [b]) (SBlock ss)
| gs_break t : tk t = tSTDPROC -> tsub t = txBREAK -> gstmt false [t] SBreak
| gs_continue t : tk t = tSTDPROC -> tsub t = txCONTINUE -> gstmt false [t] SContinue
with gstmts : list tok -> stmts -> Prop :=
| gs_one o ts s : gstmt o ts s -> gstmts ts (SOne s)
| gs_more o ts s a us ss : gstmt o ts s -> tk a = tSEMICOLON -> gstmts us ss -> gstmts (ts ++ a :: us) (SMore s ss)
with gcases : list tok -> caselist -> Prop :=
| gs_last ts ks a o us s b : gconsts ts ks -> tk a = tCOLON -> gstmt o us s -> tk b = tEND ->
    gcases (ts ++ a :: us ++ [b]) (CCase ks s CEnd)
| gs_last_semi ts ks a o us s d b : gconsts ts ks -> tk a = tCOLON -> gstmt o us s -> tk d = tSEMICOLON -> tk b = tEND ->
    gcases (ts ++ a :: us ++ [d; b]) (CCase ks s CEnd)
| gs_cases ts ks a o us s d vs cs : gconsts ts ks -> tk a = tCOLON -> gstmt o us s -> tk d = tSEMICOLON -> gcases vs cs ->
    gcases (ts ++ a :: us ++ d :: vs) (CCase ks s cs)
| gs_else a o us s b : tk a = tELSE -> gstmt o us s -> tk b = tEND -> gcases (a :: us ++ [b]) (CElse s)
| gs_else_semi a o us s d b : tk a = tELSE -> gstmt o us s -> tk d = tSEMICOLON -> tk b = tEND ->
    gcases (a :: us ++ [d; b]) (CElse s).

Scheme gstmt_mut := Induction for gstmt Sort Prop
  with gstmts_mut := Induction for gstmts Sort Prop
  with gcases_mut := Induction for gcases Sort Prop.
Combined Scheme stmt_grammar_ind from gstmt_mut, gstmts_mut, gcases_mut.

(** What may follow a statement: ; END ELSE UNTIL and . *)
Definition follows (rest : list tok) : Prop :=
  In (tk (hd eoftok rest)) [tSEMICOLON; tEND; tELSE; tUNTIL; 46].

(** ** Types *)

Definition kval (k : kconst) : Z :=
  match k with KInt n => n | KChar n => n | KBool b => if b then -1 else 0 end.
(** A case constant is of the type of the selector.  True is not supported: see
    C68_case_boolean_refuted. *)
Definition const_ok (T : etype) (k : kconst) : bool :=
  match k with
  | KInt n => is16 T && inr T n && (0 <=? n)
  | KChar n => same T xChar && inr T n
  | KBool b => same T xBoolean && negb b
  end.

(** [brk], [cont]: Break, Continue are allowed.  Continue inside of REPEAT is not
    considered, nor are FOR variables of other types than Integer and final values
    that mention the variable: see the refutations of C68. *)
Fixpoint wf_stmt (brk cont : bool) (s : stmt) : Prop :=
  match s with
  | SEmpty => True
  | SAssign x e => etype_of (vty x) e = Some (vty x) /\ class_of (vty x) <> None
  | SIf e s => etype_of xBoolean e = Some xBoolean /\ wf_stmt brk cont s
  | SIfElse e s1 s2 => etype_of xBoolean e = Some xBoolean /\ wf_stmt brk cont s1 /\ wf_stmt brk cont s2
  | SWhile e s => etype_of xBoolean e = Some xBoolean /\ wf_stmt true true s
  | SRepeat ss e => wf_stmts true false ss /\ etype_of xBoolean e = Some xBoolean
  | SFor x _ e1 e2 s => vty x = xInteger /\ etype_of xInteger e1 = Some xInteger /\
      etype_of xInteger e2 = Some xInteger /\ ~ In x (evars e2) /\ wf_stmt true true s
  | SCase e cs => exists T, etype_of xAnyOrdinal e = Some T /\ is32 T = false /\ wf_cases brk cont T cs
  | SBlock ss => wf_stmts brk cont ss
  | SBreak => brk = true
  | SContinue => cont = true
  end
with wf_stmts (brk cont : bool) (ss : stmts) : Prop :=
  match ss with
  | SOne s => wf_stmt brk cont s
  | SMore s ss => wf_stmt brk cont s /\ wf_stmts brk cont ss
  end
with wf_cases (brk cont : bool) (T : etype) (cs : caselist) : Prop :=
  match cs with
  | CEnd => True
  | CCase ks s cs => forallb (const_ok T) ks = true /\ wf_stmt brk cont s /\ wf_cases brk cont T cs
  | CElse s => wf_stmt brk cont s
  end.

(** ** What the compiler lets pass, besides *)

(** As [wf_tok]; besides, constants of the other types are not considered: see C71_real_refuted. *)
Definition known (t : tok) : Prop := wf_tok t /\ tk t <> tREAL_CONST /\ tk t <> sSCALAR_OBJECT.

(** The conditions on types that are checked: expressions are of the type asked for,
    FOR variables are integers, case constants are numbers of 16 bits, and Break and
    Continue are inside of a loop.  The type of case constants is not compared. *)
Definition const_lax (k : kconst) : bool :=
  match k with KInt n | KChar n => n <=? 65535 | KBool b => negb b end.
Fixpoint lax_stmt (brk cont : bool) (s : stmt) : Prop :=
  match s with
  | SEmpty => True
  | SAssign x e => elax (vty x) e <> None
  | SIf e s => elax xBoolean e <> None /\ lax_stmt brk cont s
  | SIfElse e s1 s2 => elax xBoolean e <> None /\ lax_stmt brk cont s1 /\ lax_stmt brk cont s2
  | SWhile e s => elax xBoolean e <> None /\ lax_stmt true true s
  | SRepeat ss e => lax_stmts true true ss /\ elax xBoolean e <> None
  | SFor x _ e1 e2 s => ~ In (vty x) [xChar; xBoolean] /\ elax (vty x) e1 <> None /\ elax (vty x) e2 <> None /\ lax_stmt true true s
  | SCase e cs => elax xAnyOrdinal e <> None /\ lax_cases brk cont cs
  | SBlock ss => lax_stmts brk cont ss
  | SBreak => brk = true
  | SContinue => cont = true
  end
with lax_stmts (brk cont : bool) (ss : stmts) : Prop :=
  match ss with
  | SOne s => lax_stmt brk cont s
  | SMore s ss => lax_stmt brk cont s /\ lax_stmts brk cont ss
  end
with lax_cases (brk cont : bool) (cs : caselist) : Prop :=
  match cs with
  | CEnd => True
  | CCase ks s cs => forallb const_lax ks = true /\ lax_stmt brk cont s /\ lax_cases brk cont cs
  | CElse s => lax_stmt brk cont s
  end.

(** The variables of a statement *)
Fixpoint stmt_vars (s : stmt) : list var :=
  match s with
  | SEmpty | SBreak | SContinue => []
  | SAssign x e => x :: evars e
  | SIf e s | SWhile e s => evars e ++ stmt_vars s
  | SIfElse e s1 s2 => evars e ++ stmt_vars s1 ++ stmt_vars s2
  | SRepeat ss e => stmts_vars ss ++ evars e
  | SFor x _ e1 e2 s => x :: evars e1 ++ evars e2 ++ stmt_vars s
  | SCase e cs => evars e ++ cases_vars cs
  | SBlock ss => stmts_vars ss
  end
with stmts_vars (ss : stmts) : list var :=
  match ss with SOne s => stmt_vars s | SMore s ss => stmt_vars s ++ stmts_vars ss end
with cases_vars (cs : caselist) : list var :=
  match cs with CEnd => [] | CCase _ s cs => stmt_vars s ++ cases_vars cs | CElse s => stmt_vars s end.

(** ** Meaning: a relation between the values of the variables before and after *)

Definition env := var -> Z.
Inductive how := Normal | Broke | Continued.

Definition var_eqb (x y : var) : bool :=
  same (vty x) (vty y) && (vlev x =? vlev y) && (voff x =? voff y).
Definition set (r : env) (x : var) (z : Z) : env := fun y => if var_eqb y x then z else r y.

(** The numbers a variable can hold: short integers and characters have 8 bits *)
Definition storable (t : etype) (z : Z) : bool :=
  match t with
  | xShortInteger => (-128 <=? z) && (z <=? 127)
  | xShortWord | xChar => (0 <=? z) && (z <=? 255)
  | _ => inr t z
  end.

Section Loops.
  Variable test : env -> option Z.
  Variable body : env -> how -> env -> Prop.

  Inductive while_loop : env -> env -> Prop :=
  | while_end r : test r = Some 0 -> while_loop r r
  | while_again r z h r1 r2 : test r = Some z -> z <> 0 -> body r h r1 -> h <> Broke ->
      while_loop r1 r2 -> while_loop r r2
  | while_break r z r1 : test r = Some z -> z <> 0 -> body r Broke r1 -> while_loop r r1.

  Inductive repeat_loop : env -> env -> Prop :=
  | repeat_end r h r1 z : body r h r1 -> h <> Broke -> test r1 = Some z -> z <> 0 -> repeat_loop r r1
  | repeat_again r h r1 r2 : body r h r1 -> h <> Broke -> test r1 = Some 0 -> repeat_loop r1 r2 -> repeat_loop r r2
  | repeat_break r r1 : body r Broke r1 -> repeat_loop r r1.

  (** The variable is one beyond the final value afterwards; the next value must be
      a number of the type: see C68_for_limit_refuted. *)
  Variable x : var.
  Variable down : bool.
  Variable final : Z.
  Definition beyond (r : env) : Prop := if down then r x < final else final < r x.
  Definition advanced (r : env) : Z := if down then r x - 1 else r x + 1.
  Inductive for_loop : env -> env -> Prop :=
  | for_end r : beyond r -> for_loop r r
  | for_again r h r1 r2 : ~ beyond r -> body r h r1 -> h <> Broke -> inr xInteger (advanced r1) = true ->
      for_loop (set r1 x (advanced r1)) r2 -> for_loop r r2
  | for_break r r1 : ~ beyond r -> body r Broke r1 -> for_loop r r1.

  (** The definition of Pascal: the body is executed for each of the values [vs]. *)
  Inductive for_each : list Z -> env -> env -> Prop :=
  | each_end r : for_each [] r r
  | each_next v vs r h r1 r2 : body (set r x v) h r1 -> h <> Broke -> for_each vs r1 r2 -> for_each (v :: vs) r r2
  | each_break v vs r r1 : body (set r x v) Broke r1 -> for_each (v :: vs) r r1.
End Loops.

Fixpoint means (s : stmt) (r : env) (h : how) (r' : env) : Prop :=
  match s with
  | SEmpty => h = Normal /\ r' = r
  | SAssign x e => exists z, evalue r (vty x) e = Some z /\ storable (vty x) z = true /\ h = Normal /\ r' = set r x z
  | SIf e s => exists z, evalue r xBoolean e = Some z /\ (if z =? 0 then h = Normal /\ r' = r else means s r h r')
  | SIfElse e s1 s2 => exists z, evalue r xBoolean e = Some z /\ (if z =? 0 then means s2 r h r' else means s1 r h r')
  | SWhile e s => h = Normal /\ while_loop (fun r => evalue r xBoolean e) (means s) r r'
  | SRepeat ss e => h = Normal /\ repeat_loop (fun r => evalue r xBoolean e) (means_seq ss) r r'
  | SFor x down e1 e2 s => h = Normal /\ exists z1 z2, evalue r xInteger e1 = Some z1 /\ evalue r xInteger e2 = Some z2 /\
      for_loop (means s) x down z2 (set r x z1) r'
  | SCase e cs => exists z, evalue r xAnyOrdinal e = Some z /\ means_cases cs z r h r'
  | SBlock ss => means_seq ss r h r'
  | SBreak => h = Broke /\ r' = r
  | SContinue => h = Continued /\ r' = r
  end
with means_seq (ss : stmts) (r : env) (h : how) (r' : env) : Prop :=
  match ss with
  | SOne s => means s r h r'
  | SMore s ss => exists h1 r1, means s r h1 r1 /\
      match h1 with Normal => means_seq ss r1 h r' | _ => h = h1 /\ r' = r1 end
  end
with means_cases (cs : caselist) (z : Z) (r : env) (h : how) (r' : env) : Prop :=
  match cs with
  | CEnd => h = Normal /\ r' = r
  | CCase ks s cs => if existsb (fun k => kval k =? z) ks then means s r h r' else means_cases cs z r h r'
  | CElse s => means s r h r'
  end.

(** ** Execution of code with labels *)

Definition is_pseudo (p : opType) : bool := (op p =? oLABEL) || (op p =? oLINE).
(** Calls and returns are no steps of this relation: see BlockSpec.v. *)
Definition is_call (p : opType) : bool := (op p =? oPCAL) || (op p =? oRET).
Definition labelled (prog : list opType) (l : Z) (j : nat) : Prop := nth_error prog j = Some (mkOp oLABEL 0 l).

Inductive step (prog : list opType) : nat * st -> nat * st -> Prop :=
| step_pseudo i s p : nth_error prog i = Some p -> is_pseudo p = true -> step prog (i, s) (S i, s)
| step_falls i s p s' : nth_error prog i = Some p -> is_pseudo p = false -> flow_op s p = Falls s' -> is_call p = false ->
    step prog (i, s) (S i, s')
| step_jumps i s p l s' j : nth_error prog i = Some p -> is_pseudo p = false -> flow_op s p = Jumps l s' ->
    labelled prog l j -> step prog (i, s) (j, s').
Inductive runs (prog : list opType) : nat * st -> nat * st -> Prop :=
| runs_refl a : runs prog a a
| runs_step a b c : step prog a b -> runs prog b c -> runs prog a c.

(** The code [ps] stands at position [i] of the program. *)
Definition stands (prog : list opType) (i : nat) (ps : list opType) : Prop :=
  forall k p, nth_error ps k = Some p -> nth_error prog (i + k) = Some p.

Definition labels (ps : list opType) : list Z := map arg2 (filter (fun p => op p =? oLABEL) ps).
Definition targets (ps : list opType) : list Z := map arg2 (filter is_jump ps).

(** ** Variables in memory *)

Section Placement.
  Variable lev : Z.
  Variable xs : list var.          (* the variables of the program *)
  Variable adr : var -> Z.         (* their addresses *)
  Variable links : Z -> Prop.      (* the words that hold the static links *)
  Variable base : Z.               (* all of these are words up to [base] *)
  Variable s0 : st.

  (** The word [i] holds a part of [x]. *)
  Definition within (x : var) (i : Z) : Prop := adr x / 2 <= i <= (adr x + size_of (vty x) - 1) / 2.

  (** The addresses depend on the registers and the links only; variables do not
      overlap, neither with each other nor with the links; words are aligned. *)
  Record placed : Prop :=
    { pl_base : 0 <= base;
      pl_addr : forall s, same_regs s0 s -> (forall i, links i -> rd s i = rd s0 i) ->
        forall x, In x xs -> var_address lev s x (adr x);
      pl_links : forall i, links i -> i <= base /\ forall x, In x xs -> ~ within x i;
      pl_vars : forall x, In x xs -> 0 <= adr x /\ (adr x + size_of (vty x) - 1) / 2 <= base /\
        (size_of (vty x) <> 1 -> adr x mod 2 = 0);
      pl_sep : forall x y, In x xs -> In y xs -> x <> y ->
        disjoint (adr x) (size_of (vty x)) (adr y) (size_of (vty y)) }.

  (** The variables have the values [r]. *)
  Definition holding (s : st) (r : env) : Prop := forall x, In x xs -> contains s (vty x) (adr x) (r x).
  Definition ready (s : st) (r : env) : Prop :=
    same_regs s0 s /\ (forall i, links i -> rd s i = rd s0 i) /\ base <= sp s / 2 /\ holding s r.

  (** [s'] differs from [s] by the values of the variables, which are [r'], and by
      the stack pointer, moved by [d]; what is above it does not count. *)
  Definition effect (s s' : st) (d : Z) (r' : env) : Prop :=
    same_regs s s' /\ sp s' = sp s + d /\ holding s' r' /\
    forall i, i <= sp s' / 2 -> (forall x, In x xs -> ~ within x i) -> rd s' i = rd s i.
End Placement.
