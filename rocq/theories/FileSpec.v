(** Specification of the statements that open, close and flush files and start pages:
    their grammar and their effect.  Independent of the functions of FileModel.v. *)

From Coq Require Import ZArith Bool List.
From Verif Require Import State Opcodes EncodeModel Machine VmSpec ExprModel ExprSpec ExprRun StmtModel WriteModel WriteSpec FileModel.
From Verif Require SysioModel SysioSpec.
Import ListNotations.
Open Scope Z_scope.

Inductive fop := FOpenRead | FOpenWrite | FOpenAppend | FClose | FPage | FFlush.
Definition fword (p : fop) : Z :=
  match p with
  | FOpenRead => txRESET | FOpenWrite => txREWRITE | FOpenAppend => txAPPEND | FClose => txCLOSEFILE | FPage => txPAGE | FFlush => txFLUSH
  end.

(** ** Grammar *)

(** A variable of a file type *)
Definition names_file (a : tok) (x : var) : Prop :=
  (tk a = sTEXTFILE \/ tk a = sFILE) /\ sLevel (tsym a) = vlev x /\ vOffset (tsym a) = voff x /\ vty x = xWord.

(** RESET(f) and so on, RESET(f, size), REWRITE(f, size), PAGE, FLUSH; [outx] is the
    variable OUTPUT.  The file, the operation, the size of records *)
Inductive gfile (lev : Z) (outx : var) : list tok -> var -> fop -> option expr -> Prop :=
| gf_file a b f x d p : tk a = tSTDPROC -> tsub a = fword p -> tk b = tLPAREN -> names_file f x -> addressable lev x -> tk d = tRPAREN ->
    gfile lev outx [a; b; f; d] x p None
| gf_size a b f x e ts w d p : tk a = tSTDPROC -> tsub a = fword p -> p = FOpenRead \/ p = FOpenWrite -> tk b = tLPAREN ->
    names_file f x -> addressable lev x -> tk e = tCOMMA -> gexpr ts w -> etype_of xInteger w = Some xInteger ->
    (forall y, In y (evars w) -> addressable lev y) -> tk d = tRPAREN -> gfile lev outx (a :: b :: f :: e :: ts ++ [d]) x p (Some w)
| gf_none a p : tk a = tSTDPROC -> tsub a = fword p -> p = FPage \/ p = FFlush -> gfile lev outx [a] outx p None.

Definition wvars (w : option expr) : list var := match w with Some e => evars e | None => [] end.
Definition size_is (r : var -> Z) (w : option expr) (size : option Z) : Prop :=
  match w, size with
  | None, None => True
  | Some e, Some z => evalue r xInteger e = Some z
  | _, _ => False
  end.

(** ** Effect *)

Section Effect.
  Variables (e : SysioModel.env) (n : Z).
  Notation ent := SysioModel.ent.

  (** The operation is possible: a file that is opened is not open yet, the operating
      system opens it, a file that is closed is open, a file that is written to is open
      for that. *)
  Definition possible (p : fop) (t : SysioModel.io) : Prop :=
    match p with
    | FOpenRead | FOpenWrite | FOpenAppend => SysioModel.e_str (ent t n) = None /\ SysioModel.e_open e <> None
    | FClose => SysioModel.e_str (ent t n) <> None
    | FPage => (exists y, SysioSpec.writable t n y) /\ SysioModel.e_fail e = false
    | FFlush => exists y, SysioSpec.writable t n y
    end.

  (** What the operation changes: only the file [n], and of that neither the name nor the
      kind nor the record that it is in use *)
  Definition did (p : fop) (size : option Z) (t t' : SysioModel.io) : Prop :=
    (forall m, 0 <= m < 8 -> m <> n -> ent t' m = ent t m) /\
    SysioModel.e_name (ent t' n) = SysioModel.e_name (ent t n) /\
    SysioModel.e_text (ent t' n) = SysioModel.e_text (ent t n) /\
    SysioModel.e_use (ent t' n) = SysioModel.e_use (ent t n) /\
    SysioModel.e_rec (ent t' n) = match size with Some z => z mod 65536 | None => SysioModel.e_rec (ent t n) end /\
    match p with
    | FOpenRead => exists l, SysioModel.e_open e = Some l /\ SysioModel.e_str (ent t' n) = Some (SysioModel.mkStream l [] false) /\
                          SysioModel.e_mode (ent t' n) = SysioModel.eOPEN_READ
    | FOpenWrite => SysioModel.e_str (ent t' n) = Some (SysioModel.mkStream [] [] false) /\ SysioModel.e_mode (ent t' n) = SysioModel.eOPEN_WRITE
    | FOpenAppend => SysioModel.e_str (ent t' n) = Some (SysioModel.mkStream [] [] false) /\ SysioModel.e_mode (ent t' n) = SysioModel.eOPEN_APPEND
    | FClose => SysioModel.e_str (ent t' n) = None
    | FPage => exists y, SysioModel.e_str (ent t n) = Some y /\
                 SysioModel.e_str (ent t' n) = Some (SysioModel.mkStream (SysioModel.rest y) (SysioModel.out y ++ [12]) (SysioModel.ate y)) /\
                 SysioModel.e_mode (ent t' n) = SysioModel.e_mode (ent t n)
    | FFlush => SysioModel.e_str (ent t' n) = SysioModel.e_str (ent t n) /\ SysioModel.e_mode (ent t' n) = SysioModel.e_mode (ent t n)
    end.
End Effect.

(** The code does the operation if it is possible, and nothing else; otherwise, if no size
    is given, the program ends with an error. *)
Definition operates (lev : Z) (code : list opType) (k : Z) (x : var) (p : fop) (w : option expr) : Prop :=
  forall env size e s t, room s k -> (forall z, In z (x :: wvars w) -> located lev s z (env z)) ->
    0 <= env x < 8 -> (8 <= length (SysioModel.ftab t))%nat -> size_is env w size ->
    (possible e (env x) p t -> exists s' t', exec_io e code s t = Some (s', t') /\ same_regs s s' /\ sp s' = sp s /\
       (forall i, i <= sp s / 2 -> rd s' i = rd s i) /\ did e (env x) p size t t') /\
    (w = None -> ~ possible e (env x) p t -> exec_io e code s t = None).
