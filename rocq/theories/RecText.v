(** The output of the compiler for a program with procedures.  Definitions only. *)

From Coq Require Import ZArith Bool List.
From Verif Require Import Words State Opcodes Machine EncodeModel ExprModel StmtModel StmtSpec ActModel ActSpec BlockModel BlockSpec RecModel RecSpec RecCode.
Import ListNotations.
Open Scope Z_scope.

Definition inner_code (inner : option (list opType)) : list opType := match inner with Some code => code | None => [] end.

(** [made procs l ds code l']: the compiler, with its label counter at [l], reads the
    procedures [ds] and writes [code]; then the counter is not above [l'].  The label of
    the procedure is the first one that is taken, then the label of its block
    (pas_block.c:544 and :2969); the procedures that are declared in it follow, then its
    statements; [c] is the state of the compiler there. *)
Inductive made (procs : tok -> proc) : Z -> list decl -> list opType -> Z -> Prop :=
| made_none l l' : l <= l' -> made procs l [] [] l'
| made_more l d label ds1 inner b rest c c' N code ds2 codes l' :
    l < pLabel (d_proc d) < label -> made procs label ds1 (inner_code inner) (g_label c) ->
    before_body d c b rest label -> g_continue c = 0 -> g_break c = 0 -> g_label c + 4 * Z.of_nat (length (toks c)) <= 65535 ->
    (forall n, (N <= n)%nat -> proutine procs n (pLabel (d_proc d)) label (d_dstack d) inner (d_inits d) c = SDone c') ->
    out c' = out c ++ code -> made procs (g_label c') ds2 codes l' ->
    made procs l (d :: ds1 ++ ds2) (code ++ codes) l'.
