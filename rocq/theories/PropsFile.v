(** Properties of the statements that open, close and flush files. *)

From Coq Require Import ZArith Bool List Lia.
From Verif Require Import State Opcodes EncodeModel Machine VmSpec ExprModel ExprSpec ExprRun ExprLoad ExprCases StmtModel ArrModel ArrCases
  WriteModel WriteSpec WriteRun WriteCases ReadModel FileModel FileSpec FileMain FileCases.
From Verif Require SysioModel SysioSpec.
Import ListNotations.
Open Scope Z_scope.

(** ** C98 RESET, REWRITE, APPEND, CLOSEFILE, PAGE and FLUSH *)

(** Missing: files that are parameters or elements of arrays, failures when a size of
    records is given (C53_open_record_refuted), the end of line (below). *)
Theorem C98_file_partial : forall lev outx outf ts x p w,
  gfile lev outx ts x p w -> sLevel outf = vlev outx -> vOffset outf = voff outx -> vty outx = xWord -> addressable lev outx ->
  exists code,
    (forall c rest n, toks c = ts ++ rest -> (length ts = 1%nat -> tk (hd eoftok rest) <> tLPAREN) -> g_level c = lev -> (4 * length (toks c) + 4 <= n)%nat ->
       exists c', file_statement outf n c = ADone c' /\ errorless c c' rest code) /\
    operates lev code (2 * Z.of_nat (length ts)) x p w.
Proof. exact filed. Qed.
Print Assumptions C98_file_partial.

(** RESET(f, x) *)
Example C98_case : gfile 0 outv size_tokens fx FOpenRead (Some (evar xw)) /\ sLevel outs = vlev outv /\ vOffset outs = voff outv /\
  vty outv = xWord /\ addressable 0 outv /\
  (exists c', file_statement outs 60 (start size_tokens) = ADone c' /\ errs c' = [] /\ toks c' = []) /\
  room vmf 12 /\ (forall z, In z (fx :: wvars (Some (evar xw))) -> located 0 vmf z (fl_env z)) /\ 0 <= fl_env fx < 8 /\
  (8 <= length (SysioModel.ftab io0))%nat /\ size_is fl_env (Some (evar xw)) (Some 300) /\ possible opening (fl_env fx) FOpenRead io0.
Proof.
  split; [exact size_grammar|]. repeat (split; [reflexivity|]). split; [repeat split; vm_compute; congruence|].
  split; [exact size_compiled|]. exact fl_state.
Qed.

Theorem C98_no_file_refuted : forall ts, In ts no_file -> (forall lev outx x p w, ~ gfile lev outx ts x p w) /\
  exists c', (forall n, file_statement outs (60 + n) (start ts) = ADone c') /\ errs c' = [] /\ toks c' = [].
Proof. exact no_file_refuted. Qed.
Print Assumptions C98_no_file_refuted.

(** In Pascal RESET starts a file that is open over. *)
Theorem C98_again_refuted : exists code c', gfile 0 outv reset_f fx FOpenRead None /\
  file_statement outs 60 (start reset_f) = ADone c' /\ errorless (start reset_f) c' [] code /\
  located 0 vmf fx 2 /\ SysioSpec.readable open_f 2 (SysioModel.mkStream [97; 10] [] false) /\ SysioModel.e_open opening <> None /\
  exec_io opening code vmf open_f = None.
Proof. exact again_refuted. Qed.
Print Assumptions C98_again_refuted.

(** EOLN is true in front of the first character after READ(f, c); CLOSEFILE(f); RESET(f). *)
Theorem C98_eoln_refuted : exists code1 code2 code3 c1 c2 c3,
  read_statement outs 60 (start read_f) = ADone c1 /\ errorless (start read_f) c1 [] code1 /\
  file_statement outs 60 (start close_f) = ADone c2 /\ errorless (start close_f) c2 [] code2 /\
  file_statement outs 60 (start reset_f) = ADone c3 /\ errorless (start reset_f) c3 [] code3 /\
  left_in (exec_io opening (code1 ++ code2 ++ code3) vmf open_f) 2 = Some [97; 10] /\
  on_top (exec_io opening ((code1 ++ code2 ++ code3) ++ [refer 0 oLDS fx; io_code SysioModel.xEOLN]) vmf open_f) = Some 65535.
Proof. exact eoln_refuted. Qed.
Print Assumptions C98_eoln_refuted.
