(** Specification of Read and ReadLn: their grammar, and the values that the variables
    get.  Independent of the functions of ReadModel.v. *)

From Coq Require Import ZArith Bool List.
From Verif Require Import State Opcodes ExprModel ExprSpec StmtModel StmtSpec WriteModel WriteSpec ReadModel.
From Verif Require SysioModel SysioSpec.
Import ListNotations.
Open Scope Z_scope.

(** ** Grammar *)

(** Integers and characters can be read. *)
Definition readable_type (t : etype) : Prop := t = xInteger \/ t = xChar.
Inductive gvars (lev : Z) : list tok -> list var -> Prop :=
| gv_one a x : spells_var a x -> readable_type (vty x) -> addressable lev x -> gvars lev [a] [x]
| gv_more a x b ts xs : spells_var a x -> readable_type (vty x) -> addressable lev x -> tk b = tCOMMA ->
    gvars lev ts xs -> gvars lev (a :: b :: ts) (x :: xs).

(** Read(x1, …, xn), Read(f, x1, …, xn), ReadLn, ReadLn(), ReadLn(x1, …, xn),
    ReadLn(f, x1, …, xn); [inx] is the variable INPUT.  The file, the variables, whether
    the rest of the line is skipped *)
Inductive gread (lev : Z) (inx : var) : list tok -> var -> list var -> bool -> Prop :=
| gr_read a b ts xs d : tk a = tSTDPROC -> tsub a = txREAD -> tk b = tLPAREN -> gvars lev ts xs -> tk d = tRPAREN ->
    gread lev inx (a :: b :: ts ++ [d]) inx xs false
| gr_file a b f x e ts xs d : tk a = tSTDPROC -> tsub a = txREAD -> tk b = tLPAREN -> spells_file f x -> addressable lev x -> tk e = tCOMMA ->
    gvars lev ts xs -> tk d = tRPAREN -> gread lev inx (a :: b :: f :: e :: ts ++ [d]) x xs false
| gr_line a : tk a = tSTDPROC -> tsub a = txREADLN -> gread lev inx [a] inx [] true
| gr_empty a b d : tk a = tSTDPROC -> tsub a = txREADLN -> tk b = tLPAREN -> tk d = tRPAREN -> gread lev inx [a; b; d] inx [] true
| gr_readln a b ts xs d : tk a = tSTDPROC -> tsub a = txREADLN -> tk b = tLPAREN -> gvars lev ts xs -> tk d = tRPAREN ->
    gread lev inx (a :: b :: ts ++ [d]) inx xs true
| gr_fileln a b f x e ts xs d : tk a = tSTDPROC -> tsub a = txREADLN -> tk b = tLPAREN -> spells_file f x -> addressable lev x -> tk e = tCOMMA ->
    gvars lev ts xs -> tk d = tRPAREN -> gread lev inx (a :: b :: f :: e :: ts ++ [d]) x xs true.

(** ** Text *)

(** The line [l] starts with the number [z], possibly after blanks. *)
Definition denotes (l : list Z) (z : Z) : Prop :=
  exists sp sign ds q, l = sp ++ sign ++ ds ++ q /\ SysioSpec.numeral sp sign ds q /\ SysioSpec.value ds <= 32767 /\
    z = match sign with [45] => - SysioSpec.value ds | _ => SysioSpec.value ds end.
(** The value that a variable of the type [t] gets from the line [l] *)
Definition given (t : etype) (l : list Z) (z : Z) : Prop :=
  match t with xChar => hd_error l = Some z | _ => denotes l z end.
(** A line that can be read: not empty, without NUL, not too long *)
Definition proper_line (l : list Z) : Prop := SysioSpec.line l /\ l <> [] /\ Z.of_nat (length l) <= 254.

(** Each variable gets its value from a line of its own. *)
Inductive takes : env -> list var -> list (list Z) -> env -> Prop :=
| tk_nil r : takes r [] [] r
| tk_cons r x xs l ls z r' : proper_line l -> given (vty x) l z -> takes (set r x z) xs ls r' -> takes r (x :: xs) (l :: ls) r'.
Definition text_of (ls : list (list Z)) : list Z := flat_map (fun l => l ++ [10]) ls.

(** What a statement reads.  [pending]: the end of the line which was read last has
    been passed, but not by ReadLn. *)
Inductive consumes (r : env) (pending : bool) : list var -> bool -> list Z -> env -> Prop :=
| cs_vars xs ln ls r' : xs <> [] -> takes r xs ls r' -> consumes r pending xs ln (text_of ls) r'
| cs_pending : pending = true -> consumes r pending [] true [] r
| cs_rest l : pending = false -> ~ In 10 l -> consumes r pending [] true (l ++ [10]) r.

(** The file [n], of which [q] is left to be read; whether the end of the line is
    pending.  The other files are as they were. *)
Definition read_upto (t t' : SysioModel.io) (n : Z) (y : SysioModel.stream) (q : list Z) (pending : bool) : Prop :=
  SysioSpec.readable t' n (SysioModel.mkStream q (SysioModel.out y) (SysioModel.ate y)) /\
  SysioModel.e_eoln (SysioModel.ent t' n) = pending /\
  forall m, 0 <= m < 8 -> m <> n -> SysioModel.ent t' m = SysioModel.ent t m.
