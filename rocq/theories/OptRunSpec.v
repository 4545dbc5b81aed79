(** The whole of popt_LocalOptimization: which tables the passes see, and which
    instructions have to stay. *)

From Coq Require Import ZArith Bool List.
From Verif Require Import State Opcodes Machine VmSpec EncodeSpec OptSpec OptExcept PoptModel PoptLongModel StrOptSpec.
Import ListNotations.
Open Scope Z_scope.

(** None of the windows for which a pass is wrong occurs among the instructions [v]. *)
Definition harmless (v : list opType) : Prop :=
  (forall a b, adjacent v a b -> ~ unary_bad a b /\ ~ branch_bad a b /\ ~ load_bad a b /\ ~ store_bad a b) /\
  (forall a b o, adjacent3 v a b o -> ~ binary_bad a b o /\ ~ stack_bad a b o /\ ~ load_multi_bad a b o /\
     ~ storex_bad a b o /\ ~ long_unary_bad a b o) /\
  ~ long_first_bad v /\
  (forall a0 a1 b0 b1 o, within v [a0; a1; b0; b1; o] -> ~ long_binary_bad a0 a1 b0 b1 o) /\
  (forall a0 a1 b o, within v [a0; a1; b; o] -> ~ long_shift_bad a0 a1 b o).

(** The tables which the iterations of a pass, of the eight passes in turn, of their
    repetitions, and of the whole run are applied to *)
Fixpoint met_pass (n : nat) (step : list opType -> nat -> tout) (t : list opType) (i : nat) : list (list opType) :=
  match n with
  | O => []
  | S n' => t :: match step t i with Next t' nx _ => met_pass n' step t' nx | _ => [] end
  end.
Definition eight : list ((list opType -> nat -> tout) * nat) :=
  [(table_step unary_body, 0%nat); (long_unary_step, 1%nat); (table_step binary_body, 0%nat); (long_binary_step, 1%nat);
   (table_step branch_body, 0%nat); (table_step stack_body, 2%nat); (table_step load_body, 0%nat);
   (table_step store_body, 0%nat)].
Fixpoint met_passes (n : nat) (ps : list ((list opType -> nat -> tout) * nat)) (t : list opType) : list (list opType) :=
  match ps with
  | [] => []
  | (step, i) :: ps' =>
    met_pass n step t i ++ match pass n step t i 0 with Result t' _ => met_passes n ps' t' | _ => [] end
  end.
Fixpoint met_sweeps (m n : nat) (t : list opType) : list (list opType) :=
  match m with
  | O => []
  | S m' =>
    met_passes n eight t ++
    match sweep n t with Result t' c => if (c =? 0)%nat then [] else met_sweeps m' n t' | _ => [] end
  end.
Fixpoint met_loop (k m n : nat) (t l : list opType) : list (list opType) :=
  match k with
  | O => []
  | S k' =>
    met_sweeps m n t ++
    match sweeps m n t with
    | Result (o :: r) _ =>
      if op o =? oEND then [] else let '(t2, l2) := refill (filter not_nop r) l in met_loop k' m n t2 l2
    | _ => []
    end
  end.
Definition met (k m n : nat) (l : list opType) : list (list opType) :=
  let '(_, r) := leading l in let '(t, r') := refill [] r in met_loop k m n t r'.

(** The labels, ends of procedures and of the program, calls, and operations on files,
    strings, sets and real numbers of a list of instructions *)
Definition is_mark (o : opType) : bool := existsb (Z.eqb (op o)) marks.
Definition marked_ops (l : list opType) : list opType := filter is_mark (code l).

(** The opcodes which occur in the windows above; a program without them is never spoiled. *)
Definition troublesome : list Z :=
  [oNEG; oNOT; oSUB; oMUL; oDIV; oMOD; oUMUL; oUDIV; oUMOD; oGTZ; oLTEZ; oLT; oGTE; oGT; oLTE; oULT; oUGTE; oUGT; oULTE;
   oJGTZ; oJLTEZ; oLAR; oLAS; oLASX; oLDSX; oLDSXB; oULDSXB; oLDXM; oLDSXM; oSTB; oSTSB; oSTSX; oSTSXB; oLONGOP8].
(** By how much an instruction moves the stack pointer to reserve or free space *)
Definition moves (o : opType) : Z :=
  if op o =? oINDS then (if arg2 o <? 32768 then arg2 o else 65536 - arg2 o) else 0.
Definition plain (l : list opType) : Prop :=
  (forall o, In o l -> ~ In (op o) troublesome) /\ fold_right Z.add 0 (map moves l) < 32768.
