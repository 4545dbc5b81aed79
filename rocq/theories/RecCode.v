(** The code that the compiler makes of a procedure.  Definitions only. *)

From Coq Require Import ZArith Bool List.
From Verif Require Import Words State Opcodes Machine EncodeModel ExprModel StmtModel StmtSpec ActModel ActSpec BlockModel BlockSpec RecModel RecSpec.
Import ListNotations.
Open Scope Z_scope.

(** The compiler stands in front of the block of the procedure, at its level, with
    labels left; [label] is the label of the block. *)
Definition before_body (d : decl) (c : comp) (b : tok) (rest : list tok) (label : Z) : Prop :=
  toks c = d_toks d ++ b :: rest /\ tk b = tSEMICOLON /\ g_level c = d_level d /\ g_adjust c = 0 /\
  0 <= g_label c /\ g_label c + 2 * Z.of_nat (length (d_toks d)) <= 65535 /\ 0 < label <= 65535.
(** [code] is what the compiler makes of it.  [inner] is the code of the procedures
    that are declared in it. *)
Definition code_of (procs : tok -> proc) (d : decl) (code : list opType) : Prop :=
  exists c b rest label inner c' N, before_body d c b rest label /\
    (forall n, (N <= n)%nat -> proutine procs n (pLabel (d_proc d)) label (d_dstack d) inner (d_inits d) c = SDone c') /\
    out c' = out c ++ code.
