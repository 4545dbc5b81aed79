(** Specification of the pass for strings.  Independent of the functions of
    StrOptModel.v. *)

From Coq Require Import ZArith Bool List Relations.Relation_Operators.
From Verif Require Import Opcodes Machine.
Import ListNotations.
Open Scope Z_scope.

(** A program: the instructions up to and including the first END; END is added if
    there is none. *)
Fixpoint upto_end (l : list opType) : list opType :=
  match l with
  | [] => [mkOp oEND 0 0]
  | o :: r => if op o =? oEND then [o] else o :: upto_end r
  end.
(** The code of a program begins with a label. *)
Definition has_label (l : list opType) : Prop :=
  exists a o b, l = a ++ o :: b /\ op o = oLABEL /\ forall x, In x a -> op x <> oEND /\ op x <> oLABEL.

(** Not executed *)
Definition idle (o : opType) : Prop := op o = oNOP \/ op o = oLINE.
(** STRDUP: 9 *)
Definition duplicates (o : opType) : Prop := op o = oSTRLIB /\ arg2 o = 9.
(** The instructions that use the string: the size of its allocation, possibly an
    address, and a function that does not change the string on top of the stack:
    STRCPY2 1, STRCPYX2 3, STRDUP 9, STRCAT 11, STRCMP 13, or STRCPY 0, STRCPYX 2 *)
Inductive used_in : list opType -> Prop :=
| ui_call b p b' q c : Forall idle b -> In (op p) [oLD; oLDS; oPUSH; oPUSHB] -> Forall idle b' -> op q = oSTRLIB -> In (arg2 q) [1; 3; 9; 11; 13] ->
    used_in (b ++ p :: b' ++ q :: c)
| ui_copy b p b' a b'' q c : Forall idle b -> In (op p) [oLD; oLDS; oPUSH; oPUSHB] -> Forall idle b' -> op a = oLA \/ op a = oLAS -> Forall idle b'' ->
    op q = oSTRLIB -> arg2 q = 0 \/ arg2 q = 2 -> used_in (b ++ p :: b' ++ a :: b'' ++ q :: c).

(** What the pass may do: NOP is deleted, and STRDUP behind LAC is deleted, first by
    overwriting it *)
Inductive drops : list opType -> list opType -> Prop :=
| dr_nop a o c : op o = oNOP -> drops (a ++ o :: c) (a ++ c)
| dr_dup a lac b dup c : op lac = oLAC -> Forall idle b -> duplicates dup -> used_in c ->
    drops (a ++ lac :: b ++ dup :: c) (a ++ lac :: b ++ mkOp oNOP 0 0 :: c).
Definition shortened := clos_refl_trans _ drops.

(** No LAC stands directly in front of a STRDUP. *)
Definition no_constant_dup (l : list opType) : Prop :=
  forall a lac b dup c, l = a ++ lac :: b ++ dup :: c -> op lac = oLAC -> Forall idle b -> ~ duplicates dup.
Definition without_nops (l : list opType) : list opType := filter (fun o => negb (op o =? oNOP)) l.
