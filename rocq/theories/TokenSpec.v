(** What is expected of the tokenizer. *)

From Coq Require Import ZArith Bool String List.
From Verif Require Import TokenModel.
Import ListNotations.
Open Scope Z_scope.

(** The characters ahead: the current one and those not yet read *)
Definition ahead (c : cs) (l : list Z) : Prop := l = ic c :: cpos c ++ concat (clines c).

(** The next token: the result does not depend on the fuel once there is enough *)
Definition settles (e : symenv) (c : cs) (k : tkn) (r : tres) : Prop :=
  exists f0, forall f, (f0 <= f)%nat -> get_token f e c k = r.

(** No result, whatever the fuel *)
Definition never (e : symenv) (c : cs) (k : tkn) : Prop := forall f, get_token f e c k = TFuel.

(** ** Numbers *)

Definition dec_digit (c : Z) : Prop := 48 <= c <= 57.
Definition dec_value (ds : list Z) : Z := fold_left (fun v c => 10 * v + (c - 48)) ds 0.

(** Digits '0'..'9', 'A'..'F', 'a'..'f' with their values *)
Inductive hex_digit : Z -> Z -> Prop :=
| hd_digit n : 0 <= n < 10 -> hex_digit (48 + n) n
| hd_upper n : 10 <= n < 16 -> hex_digit (55 + n) n
| hd_lower n : 10 <= n < 16 -> hex_digit (87 + n) n.

Definition value_in (base : Z) (ns : list Z) : Z := fold_left (fun v n => base * v + n) ns 0.

(** ** Strings *)

(** A quote inside of a string is written twice *)
Definition quoted (s : list Z) : list Z := flat_map (fun c => if c =? 39 then [39; 39] else [c]) s.
Definition literal (s : list Z) : list Z := 39 :: quoted s ++ [39].

(** ** Blanks and comments *)

Definition blank (c : Z) : Prop := c = 32 \/ 9 <= c <= 13.

(** [s] does not contain the two characters [a], [b] in sequence *)
Fixpoint without (a b : Z) (s : list Z) : Prop :=
  match s with
  | x :: ((y :: _) as t) => ~ (x = a /\ y = b) /\ without a b t
  | _ => True
  end.

(** What separates tokens: blanks, { }, ( * * ), / * * / *)
Inductive layout : list Z -> Prop :=
| lay_blank c : blank c -> layout [c]
| lay_brace s : ~ In 125 s -> layout (123 :: s ++ [125])
| lay_paren s : without 42 41 (s ++ [42]) -> layout (40 :: 42 :: s ++ [42; 41])
| lay_slash s : without 42 47 (s ++ [42]) -> layout (47 :: 42 :: s ++ [42; 47]).

(** ** Symbols made of special characters *)

Definition specials : list (list Z * Z) :=
  [(chars ":=", tASSIGN); (chars "..", tSUBRANGE); (chars "<>", tNE); (chars "<=", tLE); (chars "<<", tSHL);
   (chars "><", tSYMDIFF); (chars ">=", tGE); (chars ">>", tSHR)] ++
  map (fun c => ([c], c)) (chars "!""#$&()*+,-./:;<=>?@[\]^`|}~").

Fixpoint is_prefix (p l : list Z) : bool :=
  match p, l with
  | [], _ => true
  | x :: p', y :: l' => (x =? y) && is_prefix p' l'
  | _, [] => false
  end.

(** [p] is the longest special symbol that [l] starts with *)
Definition longest (p : list Z) (t : Z) (l : list Z) : Prop :=
  In (p, t) specials /\ is_prefix p l = true /\
  forall q u, In (q, u) specials -> is_prefix q l = true -> (List.length q <= List.length p)%nat.

(** ** Words *)

(** Letters of either case are the same *)
Definition same_letter (a b : Z) : Prop :=
  a = b \/ (65 <= a <= 90 /\ b = a + 32) \/ (65 <= b <= 90 /\ a = b + 32).
Definition same_name (a b : list Z) : Prop := Forall2 same_letter a b.

Definition letter (c : Z) : Prop := 65 <= c <= 90 \/ 97 <= c <= 122.
Definition word_start (c : Z) : Prop := letter c \/ c = 95.
Definition word_char (c : Z) : Prop := letter c \/ dec_digit c \/ c = 95.
Definition is_word (w : list Z) : Prop := exists c r, w = c :: r /\ word_start c /\ Forall word_char r.

(** The latest entry from [start] on for which [ok] holds *)
Definition latest (t : list symbol) (start : nat) (ok : symbol -> Prop) (i : nat) (y : symbol) : Prop :=
  (start <= i)%nat /\ nth_error t i = Some y /\ ok y /\
  forall j z, (i < j)%nat -> nth_error t j = Some z -> ~ ok z.

Definition named (name : list Z) (y : symbol) : Prop := exists n, y_name y = Some n /\ same_name n name.
Definition field (y : symbol) : Prop := y_kind y = sRECORD_OBJECT.

(** A name as C sees it: no NUL inside *)
Definition cname (n : list Z) : Prop := ~ In 0 n.

(** Every line is delivered as a whole *)
Definition whole_line (l : list Z) : Prop := exists l', l = l' ++ [10] /\ ~ In 10 l'.
Definition by_lines (c : cs) : Prop := whole_line (ic c :: cpos c) /\ Forall whole_line (clines c).

(** A text of lines of at most [n] characters *)
Inductive text_of (n : nat) : list Z -> Prop :=
| text_nil : text_of n []
| text_line l t : (List.length l <= n)%nat -> ~ In 10 l -> text_of n t -> text_of n (l ++ 10 :: t).

(** The end of the file has been noticed: '?' is delivered *)
Definition finished (c : cs) : Prop := ic c = 63 /\ clines c = [].

(** No comment starts in [m] that could stay open *)
Definition no_comment (m : list Z) : Prop := ~ In 123 m /\ without 40 42 m /\ without 47 42 m.

(** ** The words the tokenizer knows (the tables are data of the program) *)
Definition reserved (w : list Z) (t x : Z) : Prop := exists n, In (n, t, x) rsw /\ same_name n w.
Definition alias_of (w n : list Z) : Prop := exists a, In (a, n) aliases /\ same_name a w.
Definition free_name (w : list Z) : Prop := (forall t x, ~ reserved w t x) /\ forall n, ~ alias_of w n.

(** The words of the language with their token and, for the standard functions
    (192) and procedures (193), the code of the operation: pas_tkndefs.h *)
Definition word_symbols : list (list Z * Z * Z) :=
  map (fun e => let '(n, t, x) := e in (chars n, t, x))
  [("AND"%string, 128, 0); ("ARRAY"%string, 129, 0); ("BEGIN"%string, 130, 0); ("CASE"%string, 131, 0);
   ("CONST"%string, 132, 0); ("DIV"%string, 133, 0); ("DO"%string, 134, 0); ("DOWNTO"%string, 135, 0);
   ("ELSE"%string, 136, 0); ("END"%string, 137, 0); ("FILE"%string, 138, 0); ("FINALIZATION"%string, 139, 0);
   ("FOR"%string, 140, 0); ("FUNCTION"%string, 141, 0); ("GOTO"%string, 142, 0); ("IF"%string, 143, 0);
   ("IMPLEMENTATION"%string, 144, 0); ("IN"%string, 145, 0); ("INITIALIZATION"%string, 146, 0);
   ("INTERFACE"%string, 147, 0); ("LABEL"%string, 148, 0); ("MOD"%string, 149, 0); ("NOT"%string, 151, 0);
   ("OF"%string, 152, 0); ("OR"%string, 153, 0); ("XOR"%string, 154, 0); ("PACKED"%string, 155, 0);
   ("PROCEDURE"%string, 156, 0); ("PROGRAM"%string, 157, 0); ("RECORD"%string, 158, 0); ("REPEAT"%string, 159, 0);
   ("SET"%string, 160, 0); ("SHL"%string, 161, 0); ("SHR"%string, 162, 0); ("THEN"%string, 163, 0);
   ("TO"%string, 164, 0); ("TYPE"%string, 165, 0); ("UNIT"%string, 166, 0); ("UNTIL"%string, 167, 0);
   ("USES"%string, 168, 0); ("VAR"%string, 169, 0); ("WHILE"%string, 176, 0); ("WITH"%string, 177, 0);
   ("ABS"%string, 192, 1); ("ADDR"%string, 192, 2); ("ARCTAN"%string, 192, 3); ("CHR"%string, 192, 4);
   ("COS"%string, 192, 5); ("EOLN"%string, 192, 6); ("EXP"%string, 192, 7); ("LN"%string, 192, 8);
   ("ODD"%string, 192, 9); ("ORD"%string, 192, 10); ("PRED"%string, 192, 11); ("ROUND"%string, 192, 12);
   ("SIN"%string, 192, 13); ("SQR"%string, 192, 14); ("SQRT"%string, 192, 15); ("SUCC"%string, 192, 16);
   ("TRUNC"%string, 192, 17); ("GETENV"%string, 192, 32); ("EOF"%string, 192, 142); ("DISPOSE"%string, 193, 128);
   ("EXIT"%string, 193, 129); ("GET"%string, 193, 130); ("HALT"%string, 193, 131); ("NEW"%string, 193, 132);
   ("PACK"%string, 193, 133); ("PAGE"%string, 193, 134); ("PUT"%string, 193, 135); ("UNPACK"%string, 193, 136);
   ("READ"%string, 193, 143); ("READLN"%string, 193, 144); ("RESET"%string, 193, 145);
   ("REWRITE"%string, 193, 146); ("WRITE"%string, 193, 150); ("WRITELN"%string, 193, 151)].

(** The symbol a word denotes: the latest one; fields of records are separate *)
Definition denotes (e : symenv) (w : list Z) (wantField : bool) (i : nat) (y : symbol) : Prop :=
  latest (syms e) (symStart e) (fun y => named w y /\ (field y <-> wantField = true)) i y.
Definition denotes_none (e : symenv) (w : list Z) (wantField : bool) : Prop := forall i y, ~ denotes e w wantField i y.

Definition names_ok (e : symenv) : Prop := forall y n, In y (syms e) -> y_name y = Some n -> cname n.

(** The token of a symbol *)
Definition token_of (y : symbol) (i : nat) (k : tkn) : Prop :=
  k_tok k = y_kind y /\ k_ptr k = Some i /\
  (y_kind y = tREAL_CONST -> k_real k = y_real y) /\ (y_kind y <> tREAL_CONST -> k_uint k = y_uint y).
Definition unknown_name (w : list Z) (k : tkn) : Prop := k_tok k = tIDENT /\ k_ptr k = None /\ k_str k = w.

(** Repeating getToken: the n-th token from here *)
Inductive nth_token (e : symenv) : nat -> cs -> tkn -> cs -> tkn -> Prop :=
| nt_first c k c' k' : settles e c k (TOk c' k') -> nth_token e 0 c k c' k'
| nt_next n c k c1 k1 c' k' : settles e c k (TOk c1 k1) -> nth_token e n c1 k1 c' k' -> nth_token e (S n) c k c' k'.
