(** Statements with calls of procedures, and what they mean.  Independent of the
    functions of RecModel.v. *)

From Coq Require Import ZArith Bool List.
From Verif Require Import State Opcodes Machine VmSpec OptSpec EncodeModel ExprModel ExprSpec StmtModel StmtSpec ArrModel ActModel ActSpec BlockModel BlockSpec.
From Verif Require Import StmtSpec.
Import ListNotations.
Open Scope Z_scope.

(** ** Abstract syntax: as in StmtSpec.v, and calls; [q] is the number of the
    procedure *)

Inductive pstmt :=
| PEmpty
| PAssign (x : var) (e : expr)
| PIf (e : expr) (s : pstmt)
| PIfElse (e : expr) (s1 s2 : pstmt)
| PWhile (e : expr) (s : pstmt)
| PRepeat (ss : pstmts) (e : expr)
| PFor (x : var) (down : bool) (e1 e2 : expr) (s : pstmt)
| PCase (e : expr) (cs : pcaselist)
| PBlock (ss : pstmts)
| PBreak
| PContinue
| PCall (q : nat) (es : list expr)
with pstmts := POne (s : pstmt) | PMore (s : pstmt) (ss : pstmts)
with pcaselist := QEnd | QCase (ks : list kconst) (s : pstmt) (cs : pcaselist) | QElse (s : pstmt).

Scheme pstmt_mut := Induction for pstmt Sort Prop
  with pstmts_mut := Induction for pstmts Sort Prop
  with pcaselist_mut := Induction for pcaselist Sort Prop.
Combined Scheme pstmt_syntax_ind from pstmt_mut, pstmts_mut, pcaselist_mut.

(** A procedure: how the compiler describes it, its parameters, the variables of the
    surrounding blocks, its own variables and their size, their initial values, the
    text of its block and the statements *)
Record decl := mkDecl { d_proc : proc; d_parms : list parm; d_os : list var; d_ls : list var; d_dstack : Z;
  d_inits : list initial; d_ini : list (var * Z); d_toks : list tok; d_body : pstmts }.
(** Its level, and the variables that it can use *)
Definition d_level (d : decl) : Z := pLevel (d_proc d) + 1.
Definition d_vars (d : decl) : list var := d_os d ++ value_vars (d_level d) (d_parms d) ++ d_ls d.

(** It can be called from a block at level [lev] in which the variables [xs] can be
    used: those of its surrounding blocks are the ones of levels below its own. *)
Definition visible (lev : Z) (xs : list var) (d : decl) : Prop :=
  0 <= pLevel (d_proc d) <= lev /\ forall x, In x (d_os d) <-> In x xs /\ vlev x <= pLevel (d_proc d).

(** ** Concrete syntax; [procs] is what the name of a procedure stands for *)

Section Syntax.
  Variables (procs : tok -> proc) (decls : list decl) (lev : Z) (xs : list var).

  Inductive gpstmt : bool -> list tok -> pstmt -> Prop :=
  | gp_empty : gpstmt false [] PEmpty
  | gp_assign t a ts x e : spells_var t x -> tk a = tASSIGN -> gexpr ts e -> gpstmt false (t :: a :: ts) (PAssign x e)
  | gp_if a ts e b us s o : tk a = tIF -> gexpr ts e -> tk b = tTHEN -> gpstmt o us s ->
      gpstmt true (a :: ts ++ b :: us) (PIf e s)
  | gp_ifelse a ts e b us s1 d vs s2 o : tk a = tIF -> gexpr ts e -> tk b = tTHEN -> gpstmt false us s1 ->
      tk d = tELSE -> gpstmt o vs s2 -> gpstmt o (a :: ts ++ b :: us ++ d :: vs) (PIfElse e s1 s2)
  | gp_while a ts e b us s o : tk a = tWHILE -> gexpr ts e -> tk b = tDO -> gpstmt o us s ->
      gpstmt o (a :: ts ++ b :: us) (PWhile e s)
  | gp_repeat a us ss b ts e : tk a = tREPEAT -> gpstmts us ss -> tk b = tUNTIL -> gexpr ts e ->
      gpstmt false (a :: us ++ b :: ts) (PRepeat ss e)
  | gp_for a t b ts x e1 d (down : bool) us e2 f vs s o : tk a = tFOR -> spells_var t x -> tk b = tASSIGN -> gexpr ts e1 ->
      tk d = (if down then tDOWNTO else tTO) -> gexpr us e2 -> tk f = tDO -> gpstmt o vs s ->
      gpstmt o (a :: t :: b :: ts ++ d :: us ++ f :: vs) (PFor x down e1 e2 s)
  | gp_case a ts e b us cs : tk a = tCASE -> gexpr ts e -> tk b = tOF -> gpcases us cs ->
      gpstmt false (a :: ts ++ b :: us) (PCase e cs)
  | gp_block a us ss b : tk a = tBEGIN -> gpstmts us ss -> tk b = tEND -> gpstmt false (a :: us ++ [b]) (PBlock ss)
  | gp_break t : tk t = tSTDPROC -> tsub t = txBREAK -> gpstmt false [t] PBreak
  | gp_continue t : tk t = tSTDPROC -> tsub t = txCONTINUE -> gpstmt false [t] PContinue
  | gp_call t d q ts es : tk t = sPROC -> nth_error decls q = Some d -> procs t = d_proc d -> visible lev xs d ->
      glist lev (d_parms d) ts (map AExpr es) -> gpstmt false (t :: ts) (PCall q es)
  with gpstmts : list tok -> pstmts -> Prop :=
  | gp_one o ts s : gpstmt o ts s -> gpstmts ts (POne s)
  | gp_more o ts s a us ss : gpstmt o ts s -> tk a = tSEMICOLON -> gpstmts us ss -> gpstmts (ts ++ a :: us) (PMore s ss)
  with gpcases : list tok -> pcaselist -> Prop :=
  | gp_last ts ks a o us s b : gconsts ts ks -> tk a = tCOLON -> gpstmt o us s -> tk b = tEND ->
      gpcases (ts ++ a :: us ++ [b]) (QCase ks s QEnd)
  | gp_last_semi ts ks a o us s d b : gconsts ts ks -> tk a = tCOLON -> gpstmt o us s -> tk d = tSEMICOLON -> tk b = tEND ->
      gpcases (ts ++ a :: us ++ [d; b]) (QCase ks s QEnd)
  | gp_cases ts ks a o us s d vs cs : gconsts ts ks -> tk a = tCOLON -> gpstmt o us s -> tk d = tSEMICOLON -> gpcases vs cs ->
      gpcases (ts ++ a :: us ++ d :: vs) (QCase ks s cs)
  | gp_else a o us s b : tk a = tELSE -> gpstmt o us s -> tk b = tEND -> gpcases (a :: us ++ [b]) (QElse s)
  | gp_else_semi a o us s d b : tk a = tELSE -> gpstmt o us s -> tk d = tSEMICOLON -> tk b = tEND ->
      gpcases (a :: us ++ [d; b]) (QElse s).

  Scheme gpstmt_mut := Induction for gpstmt Sort Prop
    with gpstmts_mut := Induction for gpstmts Sort Prop
    with gpcases_mut := Induction for gpcases Sort Prop.
  Combined Scheme pstmt_grammar_ind from gpstmt_mut, gpstmts_mut, gpcases_mut.
End Syntax.

(** ** Types *)

Fixpoint wf_pstmt (brk cont : bool) (s : pstmt) : Prop :=
  match s with
  | PEmpty => True
  | PAssign x e => etype_of (vty x) e = Some (vty x) /\ class_of (vty x) <> None
  | PIf e s => etype_of xBoolean e = Some xBoolean /\ wf_pstmt brk cont s
  | PIfElse e s1 s2 => etype_of xBoolean e = Some xBoolean /\ wf_pstmt brk cont s1 /\ wf_pstmt brk cont s2
  | PWhile e s => etype_of xBoolean e = Some xBoolean /\ wf_pstmt true true s
  | PRepeat ss e => wf_pstmts true false ss /\ etype_of xBoolean e = Some xBoolean
  | PFor x _ e1 e2 s => vty x = xInteger /\ etype_of xInteger e1 = Some xInteger /\
      etype_of xInteger e2 = Some xInteger /\ ~ In x (evars e2) /\ wf_pstmt true true s
  | PCase e cs => exists T, etype_of xAnyOrdinal e = Some T /\ is32 T = false /\ wf_pcases brk cont T cs
  | PBlock ss => wf_pstmts brk cont ss
  | PBreak => brk = true
  | PContinue => cont = true
  | PCall _ _ => True
  end
with wf_pstmts (brk cont : bool) (ss : pstmts) : Prop :=
  match ss with
  | POne s => wf_pstmt brk cont s
  | PMore s ss => wf_pstmt brk cont s /\ wf_pstmts brk cont ss
  end
with wf_pcases (brk cont : bool) (T : etype) (cs : pcaselist) : Prop :=
  match cs with
  | QEnd => True
  | QCase ks s cs => forallb (const_ok T) ks = true /\ wf_pstmt brk cont s /\ wf_pcases brk cont T cs
  | QElse s => wf_pstmt brk cont s
  end.


Fixpoint pstmt_vars (s : pstmt) : list var :=
  match s with
  | PEmpty | PBreak | PContinue => []
  | PCall _ es => flat_map evars es
  | PAssign x e => x :: evars e
  | PIf e s | PWhile e s => evars e ++ pstmt_vars s
  | PIfElse e s1 s2 => evars e ++ pstmt_vars s1 ++ pstmt_vars s2
  | PRepeat ss e => pstmts_vars ss ++ evars e
  | PFor x _ e1 e2 s => x :: evars e1 ++ evars e2 ++ pstmt_vars s
  | PCase e cs => evars e ++ pcases_vars cs
  | PBlock ss => pstmts_vars ss
  end
with pstmts_vars (ss : pstmts) : list var :=
  match ss with POne s => pstmt_vars s | PMore s ss => pstmt_vars s ++ pstmts_vars ss end
with pcases_vars (cs : pcaselist) : list var :=
  match cs with QEnd => [] | QCase _ s cs => pstmt_vars s ++ pcases_vars cs | QElse s => pstmt_vars s end.

(** ** Meaning.  [K q r vs r']: the call of procedure [q] with the arguments [vs]
    changes the values of the variables from [r] to [r']. *)

Definition callrel := nat -> env -> list Z -> env -> Prop.

Section Meaning.
  Variables (decls : list decl) (K : callrel).

  Fixpoint pmeans (s : pstmt) (r : env) (h : how) (r' : env) : Prop :=
    match s with
    | PEmpty => h = Normal /\ r' = r
    | PAssign x e => exists z, evalue r (vty x) e = Some z /\ storable (vty x) z = true /\ h = Normal /\ r' = set r x z
    | PIf e s => exists z, evalue r xBoolean e = Some z /\ (if z =? 0 then h = Normal /\ r' = r else pmeans s r h r')
    | PIfElse e s1 s2 => exists z, evalue r xBoolean e = Some z /\ (if z =? 0 then pmeans s2 r h r' else pmeans s1 r h r')
    | PWhile e s => h = Normal /\ while_loop (fun r => evalue r xBoolean e) (pmeans s) r r'
    | PRepeat ss e => h = Normal /\ repeat_loop (fun r => evalue r xBoolean e) (pmeans_seq ss) r r'
    | PFor x down e1 e2 s => h = Normal /\ exists z1 z2, evalue r xInteger e1 = Some z1 /\ evalue r xInteger e2 = Some z2 /\
        for_loop (pmeans s) x down z2 (set r x z1) r'
    | PCase e cs => exists z, evalue r xAnyOrdinal e = Some z /\ pmeans_cases cs z r h r'
    | PBlock ss => pmeans_seq ss r h r'
    | PBreak => h = Broke /\ r' = r
    | PContinue => h = Continued /\ r' = r
    | PCall q es => h = Normal /\ exists d vs, nth_error decls q = Some d /\
        all_passed r (fun _ => 0) (d_parms d) (map AExpr es) vs /\ K q r vs r'
    end
  with pmeans_seq (ss : pstmts) (r : env) (h : how) (r' : env) : Prop :=
    match ss with
    | POne s => pmeans s r h r'
    | PMore s ss => exists h1 r1, pmeans s r h1 r1 /\
        match h1 with Normal => pmeans_seq ss r1 h r' | _ => h = h1 /\ r' = r1 end
    end
  with pmeans_cases (cs : pcaselist) (z : Z) (r : env) (h : how) (r' : env) : Prop :=
    match cs with
    | QEnd => h = Normal /\ r' = r
    | QCase ks s cs => if existsb (fun k => kval k =? z) ks then pmeans s r h r' else pmeans_cases cs z r h r'
    | QElse s => pmeans s r h r'
    end.

End Meaning.

(** Calls that nest at most [n] deep.  The variables of the procedure are new: the
    parameters have the values of the arguments, then the initial values are assigned;
    whatever the other local variables are, the body gives the variables of the
    surrounding blocks the values [r']. *)
Fixpoint calling (decls : list decl) (n : nat) : callrel := fun q r vs r' =>
  match n with
  | O => False
  | S n => exists d, nth_error decls q = Some d /\ (forall x, ~ In x (d_os d) -> r' x = r x) /\
      forall rc r1, (forall x, In x (d_os d) -> rc x = r x) -> arrived (d_level d) (d_parms d) vs rc -> started (d_ini d) rc r1 ->
      exists rc', pmeans_seq decls (calling decls n) (d_body d) r1 Normal rc' /\ forall x, In x (d_os d) -> rc' x = r' x
  end.

(** ** Blocks *)

(** begin ... end *)
Inductive gpblock (procs : tok -> proc) (decls : list decl) (lev : Z) (xs : list var) : list tok -> pstmts -> Prop :=
| gpb_block a us ss b : tk a = tBEGIN -> gpstmts procs decls lev xs us ss -> tk b = tEND -> gpblock procs decls lev xs (a :: us ++ [b]) ss.

(** As [block_text] *)
Record pblock_text (procs : tok -> proc) (decls : list decl) (k : Z) (xs : list var) (dstack : Z) (inits : list initial) (ini : list (var * Z)) (ts : list tok) (ss : pstmts) : Prop :=
  { pbt_block : gpblock procs decls k xs ts ss;
    pbt_wf : wf_pstmts false false ss;
    pbt_vars : forall x, In x (pstmts_vars ss) -> In x xs /\ addressable k x;
    pbt_lines : Forall (fun t => 0 <= tline t <= 65535) ts;
    pbt_short : 2 * Z.of_nat (length ts) <= 32768;
    pbt_inits : Forall2 (fun i xz => gives i (fst xz) (snd xz)) inits ini;
    pbt_once : NoDup (map fst ini);
    pbt_ini_vars : forall x, In x (map fst ini) -> In x xs /\ addressable k x;
    pbt_stack : 0 <= dstack <= 32766 }.

(** A procedure as it is declared *)
Record declared (procs : tok -> proc) (decls : list decl) (d : decl) : Prop :=
  { dc_text : pblock_text procs decls (d_level d) (d_vars d) (d_dstack d) (d_inits d) (d_ini d) (d_toks d) (d_body d);
    dc_os : forall x, In x (d_os d) -> vlev x <= pLevel (d_proc d);
    dc_locals : locals (d_level d) (d_dstack d) (d_ls d);
    dc_formals : Forall2 described (pFormals (d_proc d)) (d_parms d);
    dc_level : 0 <= pLevel (d_proc d) < 255;
    dc_label : 0 <= pLabel (d_proc d) < 65536;
    dc_slots : slots (d_parms d) <= 32768 }.

(** The words of the stack that one call needs *)
Definition d_need (d : decl) : Z := 7 + whole (d_dstack d) / 2 + 2 * Z.of_nat (length (d_toks d)).
