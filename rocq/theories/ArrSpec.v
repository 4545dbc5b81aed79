(** Specification of array elements.  An element is a variable: its offset is
    that of the array plus the distance given by the indices.  Independent of the
    functions of ArrModel.v. *)

From Coq Require Import ZArith Bool List.
From Verif Require Import State Opcodes Machine VmSpec ExprModel ExprSpec.
From Verif Require DeclModel DeclSpec.
Import ListNotations.
Open Scope Z_scope.

(** An array variable: type of the elements, level, offset, bounds of the indices *)
Record arr := mkArr { aty : etype; alev : Z; aoff : Z; abounds : list (Z * Z) }.

Definition count (i : Z * Z) : Z := snd i - fst i + 1.
Definition bounded (i : Z * Z) (v : Z) : Prop := fst i <= v <= snd i.

(** The distance of an element from the first one: neighbours with respect to the
    first index are [u] apart, with respect to the second one as far as a run of
    the first index is long, and so on. *)
Fixpoint distance (u : Z) (is : list (Z * Z)) (vs : list Z) : Z :=
  match is, vs with
  | i :: is, v :: vs => (v - fst i) * u + distance (u * count i) is vs
  | _, _ => 0
  end.
Definition elem (a : arr) (vs : list Z) : var :=
  mkVar (aty a) (alev a) (aoff a + distance (size_of (aty a)) (abounds a) vs).
Definition asize (a : arr) : Z := fold_left (fun z i => z * count i) (abounds a) (size_of (aty a)).

(** The array can be addressed from a procedure at level [lev]: globals lie behind
    the stack pointer's origin, locals behind the frame header, parameters in
    front of the frame. *)
Definition reachable (lev : Z) (a : arr) : Prop :=
  0 <= alev a <= lev /\ lev - alev a <= 255 /\
  if alev a =? 0 then 0 <= aoff a /\ aoff a + asize a <= 65536
  else (0 <= aoff a /\ aoff a + asize a <= 32768) \/ (-32768 <= aoff a /\ aoff a + asize a <= 0).
Definition proper (a : arr) : Prop :=
  abounds a <> [] /\ (length (abounds a) <= 255)%nat /\
  Forall (fun i => fst i <= snd i /\ -32768 <= fst i /\ snd i <= 65535) (abounds a) /\ asize a < 65536 /\
  class_of (aty a) <> None.

(** [p] is the entry of the type of [a] in the symbol table. *)
Definition array_at (l : list DeclModel.sym) (p : nat) (a : arr) : Prop :=
  exists s t, nth_error l p = Some s /\ DeclModel.sKind s = 0x44 /\ DeclModel.sParm s = DeclModel.PType t /\
  DeclModel.tType t = 0x57 /\ DeclModel.tDim t = Z.of_nat (length (abounds a)) /\
  DeclSpec.indexes l 0 (length l) (DeclModel.tIdx t) (size_of (aty a)) (abounds a) /\
  exists q s' e, DeclModel.tPar t = Some q /\ nth_error l q = Some s' /\ DeclModel.sKind s' = 0x44 /\
    DeclModel.sParm s' = DeclModel.PType e /\ DeclModel.tSize e = size_of (aty a) /\ DeclModel.tPar e = None /\
    (DeclModel.tType e = kind_of (aty a) \/ DeclModel.tType e = 0x55 /\ DeclModel.tSub e = kind_of (aty a)).

(** e1, …, en ] *)
Inductive gindices : list tok -> list expr -> Prop :=
| gi_last ts e b : gexpr ts e -> tk b = 0x5d -> gindices (ts ++ [b]) [e]
| gi_more ts e b us es : gexpr ts e -> tk b = 0x2c -> gindices us es -> gindices (ts ++ b :: us) (e :: es).

Definition index_ok (lev : Z) (e : expr) : Prop :=
  etype_of xInteger e = Some xInteger /\ forall x, In x (evars e) -> addressable lev x.
Definition ivars (es : list expr) : list var := flat_map evars es.
Definition ivalues (env : var -> Z) (es : list expr) (vs : list Z) : Prop :=
  Forall2 (fun e v => evalue env xInteger e = Some v) es vs.
