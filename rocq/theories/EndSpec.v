(** Chains of types. *)

From Coq Require Import ZArith List Relations.
From Verif Require Import DeclModel.
Import ListNotations.
Open Scope Z_scope.

(** Entry [p] of a table, read as a type *)
Definition word_of (l : list sym) (p : nat) : option tyrec :=
  match nth_error l p with
  | Some s =>
    match sParm s with
    | PType t => Some t
    | PConst v _ => Some (mkTy (v mod 256) (v / 256 mod 256) (v / 16777216 mod 256) 0 0 0 None None)
    | _ => None
    end
  | None => None
  end.
(** [q] is the type [p] is made of; a set is not made of its elements. *)
Definition parent (l : list sym) (p q : nat) : Prop :=
  exists t s, word_of l p = Some t /\ tPar t = Some q /\ nth_error l q = Some s /\ sKind s = 0x44 /\ tType t <> 0x56.
(** The types [p] is made of lead back to one of them. *)
Definition circular (l : list sym) (p : nat) : Prop :=
  exists q, clos_refl_trans_1n nat (parent l) p q /\ clos_trans_1n nat (parent l) q q.
