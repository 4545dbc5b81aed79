(** Specification of the set operations: subsets of 0..63. *)

From Coq Require Import ZArith List.
From Verif Require Import State VmSpec.
Import ListNotations.
Open Scope Z_scope.

(** The set which the words [ws] (lowest address first) represent. *)
Definition member_of (ws : list Z) (i : Z) : Prop :=
  0 <= i < 64 /\ Z.testbit (nth (Z.to_nat (i / 16)) ws 0) (i mod 16) = true.

(** A set occupies four words; [k] is the distance of its last word from the
    top of the stack. *)
Definition set_at (s : st) (k : Z) (ws : list Z) : Prop :=
  length ws = 4%nat /\
  forall j, (j < 4)%nat -> tos s (k + 3 - Z.of_nat j) = Some (nth j ws 0).

(** The words [ws] represent the set [P]. *)
Definition represents (ws : list Z) (P : Z -> Prop) : Prop :=
  length ws = 4%nat /\ forall i, 0 <= i < 64 -> (member_of ws i <-> P i).

(** [z] is the number of a member [m] in a set whose base type starts at
    [base]; both are 16-bit integers and so is their difference. *)
Definition member_number (m base z : Z) : Prop :=
  exists x y, signed16 m x /\ signed16 base y /\ signed16 (x - y) z.

(** Numbers of the operations in include/pas_setops.h *)
Definition nINTERSECTION := 2. Definition nUNION := 3. Definition nDIFFERENCE := 4.
Definition nSYMDIFF := 5. Definition nEQUALITY := 6. Definition nNONEQUALITY := 7.
Definition nCONTAINS := 8. Definition nMEMBER := 9. Definition nINCLUDE := 10.
Definition nEXCLUDE := 11. Definition nCARD := 12. Definition nSINGLETON := 13.
Definition nSUBRANGE := 14. Definition nEMPTY := 1.

(** (operation, element of the result) for the first set A and the second B *)
Definition set_algebra : list (Z * (Prop -> Prop -> Prop)) :=
  [ (nINTERSECTION, fun a b => a /\ b);
    (nUNION, fun a b => a \/ b);
    (nDIFFERENCE, fun a b => a /\ ~ b);
    (nSYMDIFF, fun a b => a /\ ~ b \/ ~ a /\ b) ].

(** (operation, relation of A and B) *)
Definition set_relations : list (Z * ((Z -> Prop) -> (Z -> Prop) -> Prop)) :=
  [ (nEQUALITY, fun A B : Z -> Prop => forall i, A i <-> B i);
    (nNONEQUALITY, fun A B : Z -> Prop => ~ forall i, A i <-> B i);
    (nCONTAINS, fun A B : Z -> Prop => forall i, A i -> B i) ].

(** The subranges which the constructor handles: both ends in the same 16
    elements, or a first element below 16 such that the bits of the last word
    end the loop. *)
Definition subrange_ok (a b : Z) : Prop :=
  a / 16 = b / 16 \/ (a < 16 /\ (31 <= b \/ b mod 16 + 1 <= 16 - a)).
