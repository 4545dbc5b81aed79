(** Specification of the functions that ask for the end of a file or of a line.
    Independent of the functions of EofModel.v. *)

From Coq Require Import ZArith Bool List.
From Verif Require Import State Opcodes EncodeModel Machine VmSpec ExprModel ExprSpec ExprRun StmtModel WriteModel WriteSpec FileSpec EofModel.
From Verif Require SysioModel SysioSpec.
Import ListNotations.
Open Scope Z_scope.

Inductive query := QEof | QEoln | QSeekEof | QSeekEoln.
Definition qword (q : query) : Z := match q with QEof => txEOF | QEoln => txEOLN | QSeekEof => txSEEKEOF | QSeekEoln => txSEEKEOLN end.

(** Eof(f) and so on, Eof and so on; [inx] is the variable INPUT. *)
Inductive gquery (lev : Z) (inx : var) : list tok -> var -> query -> Prop :=
| gq_file a b f x d q : tk a = tSTDFUNC -> tsub a = qword q -> tk b = tLPAREN -> names_file f x -> addressable lev x -> tk d = tRPAREN ->
    gquery lev inx [a; b; f; d] x q
| gq_none a q : tk a = tSTDFUNC -> tsub a = qword q -> gquery lev inx [a] inx q.

Definition white (c : Z) : Prop := c = 32 \/ 9 <= c <= 13.

(** The answer is yes: nothing is left of the file; the end of the line read last has been
    passed; only blanks are left of the file; only blanks are left of the line *)
Definition holds (q : query) (left : list Z) (pending : bool) : Prop :=
  match q with
  | QEof => left = []
  | QEoln => pending = true
  | QSeekEof => Forall white left
  | QSeekEoln => exists w r, left = w ++ 10 :: r /\ Forall white w
  end.

(** The file is suited to the question: for Eof it is not INPUT, the end was not found before
    everything was read, and the operating system finds the position; for SeekEoln the line
    ends with a newline. *)
Definition suited (q : query) (e : SysioModel.env) (n : Z) (y : SysioModel.stream) : Prop :=
  match q with
  | QEof => n <> 0 /\ SysioModel.e_fail e = false /\ (SysioModel.ate y = true -> SysioModel.rest y = [])
  | QSeekEoln => In 10 (SysioModel.rest y)
  | _ => True
  end.

(** The code pushes the answer.  Only the file asked can change, by SeekEof and SeekEoln, of
    which a part at the beginning of what is left is skipped; that does not happen with Eof
    and Eoln.  If the file is not open the program ends with an error. *)
Definition answers (lev : Z) (code : list opType) (x : var) (q : query) : Prop :=
  forall env e s t, room s 1 -> located lev s x (env x) ->
    (forall y, SysioSpec.readable t (env x) y -> suited q e (env x) y ->
       exists s' t' (b : bool) y', exec_io e code s t = Some (s', t') /\ pushed s s' [if b then 65535 else 0] /\
         (b = true <-> holds q (SysioModel.rest y) (SysioModel.e_eoln (SysioModel.ent t (env x)))) /\
         (forall m, 0 <= m < 8 -> m <> env x -> SysioModel.ent t' m = SysioModel.ent t m) /\
         SysioSpec.readable t' (env x) y' /\ SysioModel.out y' = SysioModel.out y /\
         (exists w, SysioModel.rest y = w ++ SysioModel.rest y') /\
         (b = true -> q = QSeekEof -> SysioModel.rest y' = []) /\ (q = QEof \/ q = QEoln -> t' = t)) /\
    (q <> QEoln -> 0 <= env x < 8 -> SysioModel.e_str (SysioModel.ent t (env x)) = None -> exec_io e code s t = None).
