(** Specification of FilePos, FileSize and Seek.  Independent of the functions of
    PosModel.v. *)

From Coq Require Import ZArith Bool List.
From Verif Require Import State Opcodes EncodeModel Machine VmSpec ExprModel ExprSpec ExprRun StmtModel WriteModel WriteSpec FileSpec PosModel.
Import ListNotations.
Open Scope Z_scope.

(** FILEPOS(f), FILESIZE(f) *)
Definition gpos (ts : list tok) : Prop :=
  exists a b f d x, ts = [a; b; f; d] /\ tk a = tSTDFUNC /\ (tsub a = txFILEPOS \/ tsub a = txFILESIZE) /\
    tk b = tLPAREN /\ names_file f x /\ tk d = tRPAREN.

(** SEEK(f, w) *)
Inductive gseek (lev : Z) : list tok -> var -> expr -> Prop :=
| gs_seek a b f x e ts w d : tk a = tSTDPROC -> tsub a = txSEEK -> tk b = tLPAREN -> names_file f x -> addressable lev x ->
    tk e = tCOMMA -> gexpr ts w -> etype_of xLongInteger w = Some xLongInteger ->
    (forall y, In y (evars w) -> addressable lev y) -> tk d = tRPAREN -> gseek lev (a :: b :: f :: e :: ts ++ [d]) x w.
