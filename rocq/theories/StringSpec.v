(** What is expected of the string library: strings as lists of characters,
    memory as bytes. *)

From Coq Require Import ZArith Bool List.
From Verif Require Import Words State HeapModel HeapSpec StringModel.
Import ListNotations.
Open Scope Z_scope.

Definition len (l : list Z) : Z := Z.of_nat (length l).

(** The characters [l] are in memory at address [a] *)
Fixpoint chars_at (m : Z -> Z) (a : Z) (l : list Z) : Prop :=
  match l with [] => True | x :: r => byte_of m a = x /\ chars_at m (a + 1) r end.

(** [n] bytes beginning at [a] are part of dstack *)
Definition inside (s : st) (a n : Z) : Prop := 0 <= a /\ a + n <= c_ssz (cf s).

(** The bytes at [a], an even address, are the 16-bit number [w] *)
Definition word_at (s : st) (a w : Z) : Prop :=
  a mod 2 = 0 /\ inside s a 2 /\ byte_of (mem s) a + 256 * byte_of (mem s) (a + 1) = w.

(** Two ranges of bytes are apart *)
Definition apart (a n b k : Z) : Prop := a + n <= b \/ b + k <= a.

(** A string variable at [var]: its buffer is at [buf] and has room for [cap]
    characters, its value is [v].  The allocation word may carry the flag of a
    temporary string. *)
Definition str_var (s : st) (var buf cap : Z) (v : list Z) : Prop :=
  word_at s var (len v) /\ word_at s (var + 2) buf /\
  (word_at s (var + 4) cap \/ word_at s (var + 4) (cap + 32768)) /\
  chars_at (mem s) buf v /\ len v <= cap < 4096 /\ inside s buf cap /\ apart var 6 buf cap.

(** The top of the stack, topmost word first *)
Definition operands (s : st) (l : list Z) : Prop :=
  0 <= sp s < 65536 /\ forall k w, nth_error l k = Some w -> tos s (Z.of_nat k) = Some w.

(** The characters of a string that is not a variable *)
Definition str_data (s : st) (buf : Z) (v : list Z) : Prop :=
  chars_at (mem s) buf v /\ inside s buf (len v).

(** No temporary string is released with this allocation word *)
Definition not_temporary (al : Z) : Prop := al < 32768.

(** [n] words were popped; the other registers are as before *)
Definition popped (s s' : st) (n : Z) : Prop :=
  cf s' = cf s /\ sp s' = u16 (sp s - 2 * n) /\ csp s' = csp s /\ fp s' = fp s /\ pc s' = pc s /\
  lsp s' = lsp s /\ fch s' = fch s.

(** Only the bytes in [P] may have changed *)
Definition only (s s' : st) (P : Z -> Prop) : Prop := forall a, ~ P a -> byte_of (mem s') a = byte_of (mem s) a.

Definition within (a n b : Z) : Prop := a <= b < a + n.

(** ** Values *)

Definition delete (v : list Z) (pos n : Z) : list Z :=
  if (1 <=? pos) && (pos <=? len v)
  then firstn (Z.to_nat (pos - 1)) v ++ skipn (Z.to_nat (pos - 1 + n)) v
  else v.

Definition insert (x v : list Z) (pos : Z) : list Z :=
  firstn (Z.to_nat (pos - 1)) v ++ x ++ skipn (Z.to_nat (pos - 1)) v.

Definition truncate (cap : Z) (v : list Z) : list Z := firstn (Z.to_nat cap) v.

Definition substring (v : list Z) (pos n : Z) : list Z :=
  if (1 <=? pos) && (pos <=? len v) then firstn (Z.to_nat n) (skipn (Z.to_nat (pos - 1)) v) else [].

(** [x] occurs in [v] at the position [i], counted from 1 *)
Definition occurs (x v : list Z) (i : Z) : Prop :=
  exists v1 v2, v = v1 ++ x ++ v2 /\ i = len v1 + 1.

(** [r] is the first occurrence not before [start], 0 if there is none *)
Definition first_occurrence (x v : list Z) (start r : Z) : Prop :=
  (start <= r /\ occurs x v r /\ forall i, start <= i < r -> ~ occurs x v i) \/
  (r = 0 /\ forall i, start <= i -> ~ occurs x v i).

(** Lexicographic order *)
Inductive lex_lt : list Z -> list Z -> Prop :=
| lex_nil y r : lex_lt [] (y :: r)
| lex_head x y r1 r2 : x < y -> lex_lt (x :: r1) (y :: r2)
| lex_tail x r1 r2 : lex_lt r1 r2 -> lex_lt (x :: r1) (x :: r2).

(** The sign of [r] is the order of two strings *)
Definition order_sign (r : Z) (v1 v2 : list Z) : Prop :=
  (r < 0 <-> lex_lt v1 v2) /\ (r = 0 <-> v1 = v2) /\ (0 < r <-> lex_lt v2 v1).

(** ** Operands *)

(** The operands of an assignment: lbSTRCPY, lbSTRCPY2, lbSTRCPYX, lbSTRCPYX2 *)
Definition assign_op (f : Z) (s : st) (var off src al : Z) (x : list Z) : Prop :=
  (f = lbSTRCPY /\ off = 0 /\ operands s [var; al; src; len x]) \/
  (f = lbSTRCPY2 /\ off = 0 /\ operands s [al; src; len x; var]) \/
  (f = lbSTRCPYX /\ operands s [var; al; src; len x; off]) \/
  (f = lbSTRCPYX2 /\ operands s [al; src; len x; off; var]).

Definition assign_words (f : Z) : Z := if f <? lbSTRCPYX then 4 else 5.

(** A string at the top of the stack *)
Definition top_string (s : st) (al buf : Z) (v : list Z) : Prop :=
  operands s [al; buf; len v] /\ str_data s buf v.

(** The operands of lbSTR2BSTR and lbSTR2BSTRX *)
Definition array_op (x : bool) (s : st) (array asize al buf off : Z) (v : list Z) : Prop :=
  if x then operands s [array; asize; al; buf; len v; off]
  else off = 0 /\ operands s [array; asize; al; buf; len v].

(** Bytes that the heap leaves alone: outside of the heap or in a block *)
Definition stable (s : st) (live : list (Z * Z)) (a n : Z) : Prop :=
  forall b, within a n b -> ~ in_heap (cf s) b \/ in_live live b.

(** ** Allocation of string variables *)

(** Procedures are entered (oPCAL saves csp in the frame) and left (oRET
    restores it), string variables are created by lbSTRINIT; everything else leaves csp
    alone.  Variables are aligned and at most 65534 characters long.  The
    buffers in use and the saved values of csp, latest first. *)
Inductive item := Buf (b n : Z) | Mark (c : Z).

Inductive sstep (sbs : Z) (s : st) (l : list item) : st -> list item -> Prop :=
| ss_other s' : cf s' = cf s -> csp s' = csp s -> sstep sbs s l s' l
| ss_enter : sstep sbs s l s (Mark (csp s) :: l)
| ss_leave bufs c r : (forall c', ~ In (Mark c') bufs) -> l = bufs ++ Mark c :: r ->
    sstep sbs s l (with_csp s c) r
| ss_init var n s' b : operands s [var; n] -> var mod 2 = 0 -> n <= 65534 -> string_op sbs s lbSTRINIT = Ok s' -> word_at s' (var + 2) b ->
    sstep sbs s l s' (Buf b n :: l)
| ss_fail var n e s' : operands s [var; n] -> string_op sbs s lbSTRINIT = Err e s' ->
    sstep sbs s l s' l.

Inductive shist (sbs : Z) (s0 : st) : st -> list item -> Prop :=
| sh_start : shist sbs s0 s0 []
| sh_step s l s' l' : shist sbs s0 s l -> sstep sbs s l s' l' -> shist sbs s0 s' l'.

(** The buffers of a history *)
Definition buffers (l : list item) : list (Z * Z) :=
  flat_map (fun x => match x with Buf b n => [(b, n)] | Mark _ => [] end) l.

(** The memory map begins with the string stack, followed by the constants and
    the Pascal stack (libexec_run.c:1519-1557) *)
Definition string_map (c : cfg) : Prop := 0 <= c_rop c <= c_spb c /\ c_spb c <= c_ssz c <= 65535.
