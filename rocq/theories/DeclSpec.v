(** What is expected of declarations. *)

From Coq Require Import ZArith Bool List.
From Verif Require Import DeclModel.
Import ListNotations.
Open Scope Z_scope.

(** ** Storage of variables *)

(** The variables and files among symbols *)
Definition variables (l : list sym) : list sym :=
  filter (fun s => match sParm s with PVar _ => true | _ => false end) l.

(** The bytes [s] occupies: offset and size *)
Definition start (s : sym) : Z := match sParm s with PVar v => vOff v | _ => 0 end.
Definition extent (s : sym) : Z := match sParm s with PVar v => vSize v | _ => 0 end.

(** No byte in common *)
Definition apart (s1 s2 : sym) : Prop :=
  forall b, ~ (start s1 <= b < start s1 + extent s1 /\ start s2 <= b < start s2 + extent s2).
Inductive all_apart : list sym -> Prop :=
| apart_nil : all_apart []
| apart_cons s l : (forall s', In s' l -> apart s s') -> all_apart l -> all_apart (s :: l).

(** Within the bytes from [a] to [b] *)
Definition within (a b : Z) (s : sym) : Prop := a <= start s /\ start s + extent s <= b.

Definition is_file (s : sym) : Prop := sKind s = 0x45 \/ sKind s = 0x46.

(** A file is a number of 16 bits; any other variable is as large as its type and
    begins at an even address unless it is a single byte. *)
Definition as_declared (l : list sym) (s : sym) : Prop :=
  (is_file s /\ extent s = 2) \/
  exists p ts t, match sParm s with PVar v => vPar v = Some p | _ => False end /\
    nth_error l p = Some ts /\ sParm ts = PType t /\
    sKind s = tType t /\ extent s = tSize t /\ (Z.even (start s) = true \/ tSize t = 1).

(** Every type is smaller than 64K. *)
Definition types_fit (l : list sym) : Prop :=
  forall s t, In s l -> sParm s = PType t -> 0 <= tSize t < 65536.
(** Types are of kind sTYPE: pas_AddTypeDefine is the only function that makes one. *)
Definition types_marked (l : list sym) : Prop :=
  forall s t, In s l -> sParm s = PType t -> sKind s = 0x44.

(** ** Parameters *)

(** A formal parameter: an address, or a value as large as its type *)
Definition as_parameter (l : list sym) (s : sym) : Prop :=
  (sKind s = 0x5a /\ extent s = 2) \/
  exists p ts t, match sParm s with PVar v => vPar v = Some p | _ => False end /\
    nth_error l p = Some ts /\ sParm ts = PType t /\ sKind s = tType t /\ extent s = tSize t.

(** Arguments take a whole number of words on the stack. *)
Definition words_of (s : sym) : Z := 2 * ((extent s + 1) / 2).
Fixpoint total (l : list sym) : Z := match l with [] => 0 | s :: r => words_of s + total r end.

(** ** Types *)

(** Type denoters: a name, lo .. hi, 'c' .. 'c', a pointer, a set, an array, a
    record with one name in each section *)
Inductive ty :=
| TName (n : Z)
| TRange (lo hi : Z)
| TChars (lo hi : Z)
| TPointer (n : Z)
| TSet (lo hi : Z)
| TArray (lo hi : Z) (more : list (Z * Z)) (t : ty)
| TRecord (fs : fields)
with fields :=
| FLast (n : Z) (t : ty)
| FMore (n : Z) (t : ty) (r : fields).

(** As written *)
Definition w_int (v : Z) : list raw := if v <? 0 then [RK 0x2d; RInt (- v)] else [RInt v].
Definition w_index (i : Z * Z) : list raw := [RInt (fst i); RK 0x0b; RInt (snd i)].
Fixpoint written (t : ty) : list raw :=
  match t with
  | TName n => [RId n]
  | TRange lo hi => w_int lo ++ RK 0x0b :: w_int hi
  | TChars lo hi => [RChr lo; RK 0x0b; RChr hi]
  | TPointer n => [RK 0x5e; RId n]
  | TSet lo hi => RK 0xa0 :: RK 0x98 :: w_int lo ++ RK 0x0b :: w_int hi
  | TArray lo hi more t =>
      RK 0x81 :: RK 0x5b :: w_index (lo, hi) ++ flat_map (fun i => RK 0x2c :: w_index i) more ++
      RK 0x5d :: RK 0x98 :: written t
  | TRecord fs => RK 0x9e :: w_fields fs ++ [RK 0x89]
  end
with w_fields (fs : fields) : list raw :=
  match fs with
  | FLast n t => RId n :: RK 0x3a :: written t
  | FMore n t r => RId n :: RK 0x3a :: written t ++ RK 0x3b :: w_fields r
  end.

(** What a name stands for: a type of [size] bytes ([flat]: not defined by means
    of another type), nothing, or something else *)
Inductive entry := EType (size : Z) (flat : bool) | EFree | EOther.
Definition names := Z -> entry.

Fixpoint number (fs : fields) : Z := match fs with FLast _ _ => 1 | FMore _ _ r => 1 + number r end.

(** Sizes.  A value of more than one byte begins at an even address. *)
Definition up (off size : Z) : Z := if size =? 1 then off else 2 * ((off + 1) / 2).
Definition count (i : Z * Z) : Z := snd i - fst i + 1.
Fixpoint sizeof (E : names) (t : ty) : Z :=
  match t with
  | TName n => match E n with EType z _ => z | _ => 0 end
  | TRange _ _ => 2
  | TChars _ _ => 1
  | TPointer _ => 2
  | TSet _ _ => 8
  | TArray lo hi more t => fold_left (fun z i => z * count i) more (sizeof E t * count (lo, hi))
  | TRecord fs => size_from E 0 fs
  end
with size_from (E : names) (off : Z) (fs : fields) : Z :=
  match fs with
  | FLast n t => up off (sizeof E t) + sizeof E t
  | FMore n t r => size_from E (up off (sizeof E t) + sizeof E t) r
  end.

(** Which denoters are meant *)
Definition in_range (i : Z * Z) : Prop := 0 <= fst i <= snd i /\ snd i < 65535.
Definition element (E : names) (t : ty) : Prop :=
  match t with
  | TName n => match E n with EType _ flat => flat = true | _ => False end
  | TRange _ _ | TChars _ _ | TRecord _ => True
  | TPointer _ | TSet _ _ | TArray _ _ _ _ => False
  end.
Fixpoint fine (E : names) (t : ty) : Prop :=
  match t with
  | TName n => exists z f, E n = EType z f
  | TRange lo hi => -32768 < lo <= hi /\ hi < 32768
  | TChars lo hi => 0 <= lo <= hi
  | TPointer n => exists z f, E n = EType z f
  | TSet lo hi => -32768 < lo <= hi /\ hi < 32768 /\ hi - lo < 64
  | TArray lo hi more t =>
      fine E t /\ element E t /\ Forall in_range ((lo, hi) :: more) /\ (length more < 255)%nat /\
      0 < sizeof E t /\ sizeof E (TArray lo hi more t) < 65536
  | TRecord fs => fine_fields E fs /\ sizeof E (TRecord fs) < 32768
  end
with fine_fields (E : names) (fs : fields) : Prop :=
  match fs with
  | FLast n t => E n = EFree /\ fine E t
  | FMore n t r => E n = EFree /\ fine E t /\ fine_fields E r
  end.

(** [names] describes a symbol table. *)
Definition latest (l : list sym) (n : Z) (p : nat) (s : sym) : Prop :=
  nth_error l p = Some s /\ sName s = n /\ sKind s <> 0x59 /\
  forall j s', (p < j)%nat -> nth_error l j = Some s' -> sName s' = n -> sKind s' = 0x59.
Definition describes (E : names) (l : list sym) : Prop :=
  forall n,
    match E n with
    | EType z flat => 0 < n /\ 0 <= z < 65536 /\ exists p s t, latest l n p s /\ sKind s = 0x44 /\ sParm s = PType t /\
                        tSize t = z /\ (flat = true -> tPar t = None)
    | EFree => 0 < n /\ forall j s, nth_error l j = Some s -> sName s = n -> sKind s = 0x59
    | EOther => True
    end.

(** ** What the table says of a type *)

(** The entries made for a type are those from [b] up to [c]. *)
Definition type_at (l : list sym) (b c p : nat) (t : tyrec) : Prop :=
  (b <= p < c)%nat /\ exists s, nth_error l p = Some s /\ sKind s = 0x44 /\ sParm s = PType t.
Definition field_at (l : list sym) (p : nat) (n : Z) (f : fldrec) : Prop :=
  exists s, nth_error l p = Some s /\ sKind s = 0x59 /\ sName s = n /\ sParm s = PField f.

(** The index types of an array: bounds and unit, the distance of neighbours *)
Fixpoint indexes (l : list sym) (b c : nat) (q : option nat) (u : Z) (is : list (Z * Z)) : Prop :=
  match is with
  | [] => q = None
  | i :: r => exists p t, q = Some p /\ type_at l b c p t /\ tType t = 0x55 /\ tSub t = 0x47 /\
                tMin t = fst i /\ tMax t = snd i /\ tSize t = u /\
                indexes l b c (tIdx t) (u * count i) r
  end.

(** A field is as large as its type and begins where the fields before it end,
    at an even offset unless it is a single byte. *)
Fixpoint shaped (E : names) (l : list sym) (b c p : nat) (t : ty) : Prop :=
  match t with
  | TName n => exists s r, latest l n p s /\ sKind s = 0x44 /\ sParm s = PType r /\ tSize r = sizeof E t
  | _ =>
    exists r, type_at l b c p r /\ tSize r = sizeof E t /\
    match t with
    | TName n => True
    | TRange lo hi => tPar r = None /\ tType r = 0x55 /\ tSub r = 0x47 /\ tMin r = lo /\ tMax r = hi
    | TChars lo hi => tPar r = None /\ tType r = 0x55 /\ tSub r = 0x4e /\ tMin r = lo /\ tMax r = hi
    | TPointer n => tType r = 0x52 /\ exists q s, latest l n q s /\ tPar r = Some q
    | TSet lo hi => tType r = 0x56 /\ tSub r = 0x55 /\ tMin r = lo /\ tMax r = hi
    | TArray lo hi more t' =>
        tType r = 0x57 /\ tDim r = Z.of_nat (S (length more)) /\
        indexes l b c (tIdx r) (sizeof E t') ((lo, hi) :: more) /\
        exists q, tPar r = Some q /\ shaped E l b c q t'
    | TRecord fs => tPar r = None /\ tType r = 0x58 /\ tMax r = number fs /\ fields_at E l p 0 (S p) c fs
    end
  end
with fields_at (E : names) (l : list sym) (rp : nat) (off : Z) (i c : nat) (fs : fields) : Prop :=
  match fs with
  | FLast n t => exists f tp, field_at l i n f /\ rRec f = rp /\ rSize f = sizeof E t /\
      rOff f = up off (sizeof E t) /\ rPar f = Some tp /\ rNext f = None /\ (i < c)%nat /\ shaped E l (S i) c tp t
  | FMore n t r => exists f tp j, field_at l i n f /\ rRec f = rp /\ rSize f = sizeof E t /\
      rOff f = up off (sizeof E t) /\ rPar f = Some tp /\ rNext f = Some j /\ (i < j < c)%nat /\
      shaped E l (S i) j tp t /\ fields_at E l rp (up off (sizeof E t) + sizeof E t) j c r
  end.

(** ** Type definitions *)

(** n = t; … *)
Fixpoint w_defs (defs : list (Z * ty)) : list raw :=
  match defs with
  | [] => []
  | (n, t) :: r => RId n :: RK 0x3d :: written t ++ RK 0x3b :: w_defs r
  end.

Definition set_name (n : Z) (e : entry) (E : names) : names := fun x => if x =? n then e else E x.
Definition flat (t : ty) : bool := match t with TRange _ _ | TChars _ _ | TRecord _ => true | _ => false end.

(** The name is new; the type does not mention it; the definitions after it may. *)
Fixpoint fine_defs (E : names) (defs : list (Z * ty)) : Prop :=
  match defs with
  | [] => True
  | (n, t) :: r =>
      let E1 := set_name n EOther E in
      E n = EFree /\ fine E1 t /\ fine_defs (set_name n (EType (sizeof E1 t) (flat t)) E) r
  end.
Fixpoint names_after (E : names) (defs : list (Z * ty)) : names :=
  match defs with
  | [] => E
  | (n, t) :: r => names_after (set_name n (EType (sizeof (set_name n EOther E) t) (flat t)) E) r
  end.

(** Another name for a type is a type of its own that refers to it. *)
Definition made (E : names) (l : list sym) (b c p : nat) (t : ty) : Prop :=
  match t with
  | TName x => exists r q s, type_at l b c p r /\ tSize r = sizeof E t /\ latest l x q s /\ tPar r = Some q
  | _ => shaped E l b c p t
  end.
Fixpoint defined (E : names) (l : list sym) (b c : nat) (defs : list (Z * ty)) : Prop :=
  match defs with
  | [] => True
  | (n, t) :: r =>
      let E1 := set_name n EOther E in
      (exists p s, latest l n p s /\ made E1 l b c p t) /\
      defined (set_name n (EType (sizeof E1 t) (flat t)) E) l b c r
  end.

(** ** The fields of a record, one after the other *)

Fixpoint chain (l : list sym) (q : option nat) (gs : list fldrec) : Prop :=
  match gs with
  | [] => q = None
  | g :: r => exists p n, q = Some p /\ field_at l p n g /\ chain l (rNext g) r
  end.
Definition fields_apart (g1 g2 : fldrec) : Prop :=
  forall b, ~ (rOff g1 <= b < rOff g1 + rSize g1 /\ rOff g2 <= b < rOff g2 + rSize g2).
Inductive all_fields_apart : list fldrec -> Prop :=
| fapart_nil : all_fields_apart []
| fapart_cons g l : (forall g', In g' l -> fields_apart g g') -> all_fields_apart l -> all_fields_apart (g :: l).
