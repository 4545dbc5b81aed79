(** Properties of the functions and the procedure for positions in files. *)

From Coq Require Import ZArith Bool List Lia.
From Verif Require Import State Opcodes EncodeModel Machine VmSpec ExprModel ExprSpec ExprRun ExprLoad ExprCases StmtModel ArrModel ArrCases
  WriteModel WriteSpec WriteRun WriteCases FileModel FileSpec FileMain FileCases PosModel PosSpec PosMain PosCases.
From Verif Require SysioModel.
Import ListNotations.
Open Scope Z_scope.

(** ** C100 FILEPOS, FILESIZE and SEEK *)

(** The full statement: a call of FILEPOS or FILESIZE is accepted exactly if it is
    FILEPOS(f) or FILESIZE(f) with a file f.  In fact all these are rejected; *)
Theorem C100_position_refuted : forall ts, gpos ts -> forall c rest, toks c = ts ++ rest ->
  exists c', pos_function c = Done xLongInteger c' /\ toks c' = rest /\ errs c' = errs c ++ [eINVFILETYPE].
Proof. exact rejected. Qed.
Print Assumptions C100_position_refuted.

Example C100_position_case : gpos size_call.
Proof. exact size_call_grammar. Qed.

(** what is accepted has a token in front of the file, of whatever kind; *)
Theorem C100_accepted_partial : forall c t c', pos_function c = Done t c' -> errs c' = errs c ->
  exists a b u f d, toks c = a :: b :: u :: f :: d :: toks c' /\ tk b = tLPAREN /\ tk f = sTEXTFILE /\ tk d = tRPAREN.
Proof. exact superfluous. Qed.
Print Assumptions C100_accepted_partial.

(** and there are such calls: FILEPOS(1 f). *)
Theorem C100_superfluous_refuted : ~ gpos odd_call /\
  exists c', pos_function (start odd_call) = Done xLongInteger c' /\ errs c' = [] /\ toks c' = [].
Proof. exact odd_accepted. Qed.
Print Assumptions C100_superfluous_refuted.

(** The full statement: SEEK(f, w) hands the number of f and the value of w to fseek.
    In fact the file number is taken from the upper half of the value; the operands are right
    for one value only. *)
Theorem C100_seek_refuted : forall lev ts x w, gseek lev ts x w ->
  exists code,
    (forall c rest n, toks c = ts ++ rest -> g_level c = lev -> (4 * length (toks c) + 4 <= n)%nat ->
       exists c', seek_statement n c = ADone c' /\ errorless c c' rest (code ++ [io_code SysioModel.xSEEK])) /\
    forall env z s, evalue env xLongInteger w = Some z -> room s (2 * Z.of_nat (length ts)) ->
      (forall y, In y (x :: evars w) -> located lev s y (env y)) -> 0 <= env x < 8 ->
      exists s' s'' n p, exec_list code s = Ok s' /\ seek_operands s' = Some (n, p, s'') /\ sp s'' = sp s /\
        n = z / 65536 mod 65536 /\ p = z mod 65536 * 65536 + env x /\
        (n = env x /\ p = z mod 4294967296 <-> z = 65537 * env x).
Proof. exact exchanged. Qed.
Print Assumptions C100_seek_refuted.

(** SEEK(f, 100000) *)
Example C100_seek_case : gseek 0 seek_tokens fx seek_to /\
  (exists c', seek_statement 60 (start seek_tokens) = ADone c' /\ errs c' = [] /\ toks c' = []) /\
  evalue fl_env xLongInteger seek_to = Some 100000 /\ room vmf 12 /\
  (forall y, In y (fx :: evars seek_to) -> located 0 vmf y (fl_env y)) /\ 0 <= fl_env fx < 8.
Proof.
  split; [exact seek_grammar|]. split; [eexists; split; [vm_compute; reflexivity|split; reflexivity]|]. exact seek_state.
Qed.
