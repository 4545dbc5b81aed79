(** Statements with calls of procedures: pas_Statement (pascal/pas_statement.c) with
    the case sPROC, and the functions around it.  The cases of the other statements
    are those of StmtModel.v, a call is [proc_statement] of ActModel.v; the blocks
    are those of BlockModel.v with these statements.  Definitions only. *)

From Coq Require Import ZArith Bool List.
From Verif Require Import Words State Opcodes Machine EncodeModel ExprModel StmtModel ArrModel ActModel BlockModel.
From Verif Require DeclModel.
Import ListNotations.
Open Scope Z_scope.

(** The results of ArrModel.v as results of statements *)
Definition of_ares (r : ares) : sres :=
  match r with ADone c => SDone c | ANoFuel => SNoFuel | ANotModelled => SNotModelled | AUndefined => SUndefined end.

Section Calls.
  (** What g_tknPtr points to when the token is the name of a procedure *)
  Variable procs : tok -> proc.

  (** pas_Statement, pas_statement.c:2211-2314 *)
  Definition pany_statement (n : nat) (stmt seq : comp -> sres) (more : Z -> Z -> comp -> sres) (c : comp) : sres :=
    let c1 := emit oLINE 0 (tline (cur c)) c in
    if token c1 =? sPROC then of_ares (proc_statement n (procs (cur c1)) c1)
    else any_statement n stmt seq more c.

  Fixpoint pstatement (n : nat) (c : comp) {struct n} : sres :=
    match n with O => SNoFuel | S n' => pany_statement n' (pstatement n') (pstatements n') (pcases n') c end
  with pstatements (n : nat) (c : comp) {struct n} : sres :=
    (* do { getToken(); pas_Statement(); } while (g_token == ';'): :1612-1620, :2322-2327 *)
    match n with
    | O => SNoFuel
    | S n' =>
      binds (pstatement n' (getToken c)) (fun c =>
      if token c =? tSEMICOLON then pstatements n' c else SDone c)
    end
  with pcases (n : nat) (thisCaseLabel endCaseLabel : Z) (c : comp) {struct n} : sres :=
    match n with O => SNoFuel | S n' => one_case n' (pstatement n') (pcases n') thisCaseLabel endCaseLabel c end.

  (** pas_CompoundStatement, pas_statement.c:2318-2333 *)
  Definition pcompound (n : nat) (c : comp) : sres :=
    binds (pstatements n c) (fun c => SDone (expect tEND eEND c)).

  (** pas_Block, pas_block.c:2955-3099 *)
  Definition pblock (n : nat) (label dstack : Z) (inner : option (list opType)) (inits : list initial) (c : comp) : sres :=
    let c := nested label inner c in
    let c := error_if (negb (token c =? tBEGIN)) eBEGIN c in
    let c := data_op oLABEL label c in
    let c := if dstack =? 0 then c else data_op oINDS (DeclModel.INT_ALIGNUP dstack) c in
    binds (initialization inits c) (fun c =>
    binds (pcompound n c) (fun c =>
    SDone (if dstack =? 0 then c else data_op oINDS (- DeclModel.INT_ALIGNUP dstack) c))).

  (** pas_ProcedureDeclaration, pas_block.c:620-647, behind the heading *)
  Definition proutine (n : nat) (proc_label label dstack : Z) (inner : option (list opType)) (inits : list initial) (c : comp) : sres :=
    binds (pblock n label dstack inner inits (data_op oLABEL proc_label c)) (fun c =>
    let c := simple_op oRET c in
    SDone (expect tSEMICOLON eSEMICOLON (with_level (g_level c - 1) c))).

  (** pas_Program, pas_program.c:159-164; the period is the last token. *)
  Definition pprogram (n : nat) (label dstack : Z) (inner : option (list opType)) (inits : list initial) (c : comp) : sres :=
    binds (pblock n label dstack inner inits c) (fun c =>
    SDone (simple_op oEND (error_if (negb (token c =? tPERIOD)) ePERIOD c))).
End Calls.
