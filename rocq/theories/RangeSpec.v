(** What is expected of enumerated types, subranges and sets. *)

From Coq Require Import ZArith Bool List.
From Verif Require Import DeclModel DeclSpec.
Import ListNotations.
Open Scope Z_scope.

(** [w] is a constant of kind [k]: an integer (0x02), a character (0x03) or a
    constant of an enumerated type (0x54), written out or by its name *)
Inductive constant (l : list sym) : raw -> Z -> Z -> Prop :=
| c_int v : constant l (RInt v) 0x02 v
| c_char v : constant l (RChr v) 0x03 v
| c_name n p s k v q : latest l n p s -> sKind s = k -> sParm s = PConst v q -> constant l (RId n) k v.

(** An integer of 16 bits with or without a sign *)
Inductive bound (l : list sym) : list raw -> Z -> Prop :=
| b_plain w v : constant l w 0x02 v -> 0 <= v <= 32767 -> bound l [w] v
| b_plus w v : constant l w 0x02 v -> 0 <= v <= 32767 -> bound l [RK 0x2b; w] v
| b_minus w v : constant l w 0x02 v -> 0 <= v <= 32768 -> bound l [RK 0x2d; w] (- v).

(** n1, n2, … *)
Fixpoint commas (ns : list Z) : list raw :=
  match ns with
  | [] => []
  | [n] => [RId n]
  | n :: r => RId n :: RK 0x2c :: commas r
  end.

(** The constants of an enumerated type are numbered from 0. *)
Fixpoint numbered (p : nat) (i : Z) (ns : list Z) : list sym :=
  match ns with
  | [] => []
  | n :: r => mkS n 0x54 (PConst i (Some p)) :: numbered p (i + 1) r
  end.

(** A name that stands for nothing *)
Definition unused (l : list sym) (n : Z) : Prop :=
  forall j s, nth_error l j = Some s -> sName s = n -> sKind s = 0x59.

(** [w] denotes an ordinal type: what is added to the table for it under [name],
    first the type itself *)
Inductive ordinal (l : list sym) (name : Z) : list raw -> tyrec -> list sym -> Prop :=
| o_int w1 w2 lo hi : bound l w1 lo -> bound l w2 hi -> lo <= hi ->
    ordinal l name (w1 ++ RK 0x0b :: w2) (mkTy 0x55 0x47 0 2 lo hi None None) []
| o_char w1 w2 lo hi : constant l w1 0x03 lo -> constant l w2 0x03 hi -> lo <= hi ->
    ordinal l name [w1; RK 0x0b; w2] (mkTy 0x55 0x4e 0 1 lo hi None None) []
| o_one n p s v q : latest l n p s -> sKind s = 0x54 -> sParm s = PConst v q ->
    ordinal l name [RId n; RK 0x0b; RId n] (mkTy 0x55 0x54 0 2 v v (Some p) None) []
| o_enum ns : ns <> [] -> NoDup ns -> (forall n, In n ns -> unused l n /\ n <> name) ->
    ordinal l name (RK 0x28 :: commas ns ++ [RK 0x29])
      (mkTy 0x53 0 0 2 0 (Z.of_nat (length ns) - 1) None None) (numbered (length l) 0 ns).

(** ** What is assumed *)

(** Reserved words and special symbols are no names or constants; integers have
    15 bits. *)
Definition fit_word (w : raw) : Prop :=
  match w with
  | RK c => ~ In c [0x01; 0x02; 0x03; 0x54]
  | RInt v => 0 <= v <= 32767
  | RChr v => 0 <= v <= 255
  | RId n => 0 < n
  end.
(** Constants are of a kind of their own; no symbol is of the kind of a special
    symbol.  Integer constants have 15 bits. *)
Definition fit_sym (s : sym) : Prop :=
  ~ In (sKind s) [0x01; 0x0b; 0x28; 0x29; 0x2b; 0x2c; 0x2d] /\
  match sParm s with
  | PConst v _ => 0 <= v < 2147483648 /\ (sKind s = 0x02 -> v <= 32767)
  | _ => ~ In (sKind s) [0x02; 0x03; 0x54]
  end.

(** [w] is read up to the word after it. *)
Definition read (d : ds) (w r : list raw) (new : list sym) (d' : ds) : Prop :=
  rest d = w ++ r /\ syms d' = syms d ++ new /\ derrs d' = derrs d /\
  gLevel d' = gLevel d /\ gStack d' = gStack d /\ gVarSize d' = gVarSize d /\ gParms d' = gParms d /\ fwd d' = fwd d /\
  exists d1, d' = next_from 0 d1 /\ rest d1 = r /\ syms d1 = syms d'.

(** ** Sets *)

(** A set of the values of [t]: 64 bits *)
Definition set_type (t : tyrec) (p : nat) : tyrec :=
  mkTy 0x56 (tType t) 0 8 (tMin t) (tMax t) (Some p) None.

(** The type of the elements, written out or by its name: its place in the table,
    and what is added to the table *)
Inductive elements (l : list sym) : list raw -> nat -> tyrec -> list sym -> Prop :=
| e_new w t new : ordinal l (-1) w t new -> elements l w (length l) t (mkS (-1) 0x44 (PType t) :: new)
| e_name n p s t : latest l n p s -> sKind s = 0x44 -> sParm s = PType t -> tType t = 0x53 \/ tType t = 0x55 ->
    elements l [RId n] p t [].
