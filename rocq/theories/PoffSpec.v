(** Specification of the object file library. *)

From Coq Require Import ZArith Bool List.
From Verif Require Import PoffModel.
Import ListNotations.
Open Scope Z_scope.

(** ** Line lookup *)

(** Offsets in ascending order *)
Definition ascending (tab : list Z) : Prop :=
  forall i j x y, (i <= j)%nat -> nth_error tab i = Some x -> nth_error tab j = Some y -> x <= y.

(** The entry with the greatest offset not above [offset]; none if all are above *)
Definition line_of (tab : list Z) (offset : Z) (r : option nat) : Prop :=
  match r with
  | Some i => exists x, nth_error tab i = Some x /\ x <= offset /\
                forall j y, nth_error tab j = Some y -> y <= offset -> y <= x
  | None => forall j y, nth_error tab j = Some y -> offset < y
  end.

(** ** Strings *)

(** Text of a C string: no NUL *)
Definition text (s : list Z) : Prop := Forall (fun b => b <> 0) s.

(** The C string [s] is stored at index [i] *)
Definition string_at (tab : list Z) (i : Z) (s : list Z) : Prop :=
  exists a b, tab = a ++ s ++ 0 :: b /\ i = Z.of_nat (length a).

(** A string table: C strings one after the other, the first one empty *)
Definition string_table (tab : list Z) : Prop :=
  tab = [] \/ exists ss, Forall text ss /\ tab = concat (map (fun s => s ++ [0]) ([] :: ss)).

(** The additions of a history, in order: the resulting table and the indices *)
Fixpoint additions (tab : list Z) (ss : list (option (list Z))) : option (list Z * list Z) :=
  match ss with
  | [] => Some (tab, [])
  | s :: rest =>
    match add_string tab s with
    | None => None
    | Some (tab', i) => match additions tab' rest with None => None | Some (tab'', is) => Some (tab'', i :: is) end
    end
  end.

(** What was added: the NULL pointer counts as the empty string *)
Definition added (s : option (list Z)) : list Z := match s with Some t => t | None => [] end.

(** ** Byte order *)

(** The most significant byte of a field comes first ([big]) or last *)
Definition field_bytes (big : bool) (w : nat) (v : Z) : list Z := if big then rev (le w v) else le w v.

(** A table entry: fields of given widths *)
Fixpoint entry_bytes (big : bool) (layout : list nat) (e : list Z) : list Z :=
  match layout, e with
  | w :: layout', v :: e' => field_bytes big w v ++ entry_bytes big layout' e'
  | _, _ => []
  end.

Definition table_bytes (big : bool) (layout : list nat) (t : list (list Z)) : list Z :=
  concat (map (entry_bytes big layout) t).

(** include/poff.h: fields of the table entries *)
Definition layout (k : kind) : list nat :=
  match k with
  | KSym => [1; 1; 1; 1; 4; 4; 4]%nat
  | KRel => [4; 4]%nat
  | KFiles => [4]%nat
  | KLines => [2; 2; 4]%nat
  | _ => []
  end.

Definition is_table (k : kind) : Prop := k = KSym \/ k = KRel \/ k = KLines.

Definition entry_ok (l : list nat) (e : list Z) : Prop := Forall2 (fun w v => 0 <= v < 256 ^ Z.of_nat w) l e.

(** ** Containers *)

Definition bytes (l : list Z) : Prop := Forall (fun b => 0 <= b < 256) l.

(** A container as it is built through the library: known section attributes,
    whole table entries, file below 4 GB *)
Definition container_ok (p : poff) : Prop :=
  0 <= p_type p < 256 /\ 0 <= p_arch p < 256 /\ 0 <= p_name p < 2 ^ 32 /\ 0 <= p_entry p < 2 ^ 32 /\
  (forall k, s_flags (p_sect p k) = sh_flags0 k /\ s_entsize (p_sect p k) = sh_entsize0 k /\ s_addr (p_sect p k) = 0 /\
             bytes (data p k) /\ Z.of_nat (length (data p k)) <= s_alloc (p_sect p k)) /\
  (exists n, length (data p KSym) = (n * 16)%nat) /\ (exists n, length (data p KRel) = (n * 8)%nat) /\
  (exists n, length (data p KFiles) = (n * 4)%nat) /\ (exists n, length (data p KLines) = (n * 8)%nat) /\
  string_table (data p KStr) /\
  fold_right (fun k n => Z.of_nat (length (data p k)) + n) 0 (KStr :: order) + 256 < 2 ^ 32.

(** On a little-endian host: at most one file name and no debug information *)
Definition swappable (p : poff) : Prop := (length (data p KFiles) <= 4)%nat /\ data p KDbg = [].

(** The same object: everything but the string table, which may have grown *)
Definition same_object (p q : poff) : Prop :=
  p_type q = p_type p /\ p_arch q = p_arch p /\ p_name q = p_name p /\ p_entry q = p_entry p /\
  (forall k, k <> KStr -> data q k = data p k) /\ (exists more, data q KStr = data p KStr ++ more) /\
  (forall k, s_flags (p_sect q k) = s_flags (p_sect p k) /\ s_entsize (p_sect q k) = s_entsize (p_sect p k)).

(** The same tables in the memories of two hosts *)
Definition images (T : kind -> list (list Z)) (pl pb : poff) : Prop :=
  p_type pl = p_type pb /\ p_arch pl = p_arch pb /\ p_name pl = p_name pb /\ p_entry pl = p_entry pb /\
  (forall k, k = KText \/ k = KRo \/ k = KStr \/ k = KDbg -> data pl k = data pb k) /\
  (forall k, is_table k \/ k = KFiles -> Forall (entry_ok (layout k)) (T k) /\
     data pl k = table_bytes false (layout k) (T k) /\ data pb k = table_bytes true (layout k) (T k)).
