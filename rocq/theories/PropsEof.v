(** Properties of the functions that ask for the end of a file or of a line. *)

From Coq Require Import ZArith Bool List Lia.
From Verif Require Import State Opcodes EncodeModel Machine VmSpec ExprModel ExprSpec ExprRun ExprLoad ExprCases StmtModel ArrModel ArrCases
  WriteModel WriteSpec WriteRun WriteCases ReadModel FileModel FileSpec FileMain FileCases EofModel EofSpec EofMain EofCases.
From Verif Require SysioModel SysioSpec.
Import ListNotations.
Open Scope Z_scope.

(** ** C99 EOF, EOLN, SEEKEOF and SEEKEOLN *)

(** Missing: files that are parameters or elements of arrays; EOF of INPUT, SEEKEOLN in a line
    without an end, and what Pascal says about EOLN and the position (all refuted below). *)
Theorem C99_query_partial : forall lev inx inf ts x q,
  gquery lev inx ts x q -> sLevel inf = vlev inx -> vOffset inf = voff inx -> vty inx = xWord -> addressable lev inx ->
  exists code,
    (forall c rest, toks c = ts ++ rest -> (length ts = 1%nat -> tk (hd eoftok rest) <> tLPAREN) -> g_level c = lev ->
       exists c', file_function inf c = Done xBoolean c' /\ errorless c c' rest code) /\
    answers lev code x q.
Proof. exact asked. Qed.
Print Assumptions C99_query_partial.

(** EOF(f), EOLN(f), SEEKEOF(f) and SEEKEOLN(f) *)
Example C99_case : forall q, gquery 0 outv (q_tokens q) fx q /\ sLevel outs = vlev outv /\ vOffset outs = voff outv /\
  vty outv = xWord /\ addressable 0 outv /\
  (exists c', file_function outs (start (q_tokens q)) = Done xBoolean c' /\ errs c' = [] /\ toks c' = []) /\
  room vmf 1 /\ located 0 vmf fx (fl_env fx) /\ SysioSpec.readable (open_with [32; 10]) (fl_env fx) (SysioModel.mkStream [32; 10] [] false) /\
  suited q opening (fl_env fx) (SysioModel.mkStream [32; 10] [] false).
Proof.
  intros q. split; [apply q_grammar|]. repeat (split; [reflexivity|]). split; [repeat split; vm_compute; congruence|].
  split; [apply q_compiled|]. apply q_state.
Qed.

(** A character that was found is lost. *)
Theorem C99_seek_loses_refuted : exists code1 code2, compiles QSeekEof code1 /\ compiles QSeekEoln code2 /\
  forall code r, code = code1 \/ code = code2 ->
    on_top (exec_io opening code vmf (open_with (32 :: 97 :: r))) = Some 0 /\
    left_in (exec_io opening code vmf (open_with (32 :: 97 :: r))) 2 = Some r.
Proof. exact seek_loses_refuted. Qed.
Print Assumptions C99_seek_loses_refuted.

(** SEEKEOLN passes the end of the line. *)
Theorem C99_seek_line_refuted : exists code, compiles QSeekEoln code /\
  forall r, on_top (exec_io opening code vmf (open_with (32 :: 10 :: 97 :: 10 :: r))) = Some 65535 /\
    left_in (exec_io opening (code ++ [refer 0 oLDS fx; io_code SysioModel.xREADLN]) vmf (open_with (32 :: 10 :: 97 :: 10 :: r))) 2 = Some r.
Proof. exact seek_line_refuted. Qed.
Print Assumptions C99_seek_line_refuted.

(** In Pascal SEEKEOLN is true at the end of the file. *)
Theorem C99_seek_end_refuted : exists code, compiles QSeekEoln code /\ on_top (exec_io opening code vmf (open_with [])) = Some 0.
Proof. exact seek_end_refuted. Qed.
Print Assumptions C99_seek_end_refuted.

(** In Pascal EOLN is true in front of the end of a line. *)
Theorem C99_eoln_front_refuted : exists code, compiles QEoln code /\
  forall r, on_top (exec_io opening code vmf (open_with (10 :: r))) = Some 0.
Proof. exact eoln_front_refuted. Qed.
Print Assumptions C99_eoln_front_refuted.

(** EOLN of a file that is not open should be an error. *)
Theorem C99_eoln_closed_refuted : exists code, compiles QEoln code /\ SysioModel.e_str (SysioModel.ent io0 2) = None /\
  on_top (exec_io opening code vmf io0) = Some 0.
Proof. exact eoln_closed_refuted. Qed.
Print Assumptions C99_eoln_closed_refuted.

(** EOF is false although nothing is left of INPUT. *)
Theorem C99_eof_input_refuted : exists code c', gquery 0 outv eof_tokens outv QEof /\
  file_function outs (start eof_tokens) = Done xBoolean c' /\ errorless (start eof_tokens) c' [] code /\
  located 0 vmi outv 0 /\ SysioSpec.readable io0 0 (SysioModel.mkStream [] [] false) /\ on_top (exec_io opening code vmi io0) = Some 0.
Proof. exact eof_input_refuted. Qed.
Print Assumptions C99_eof_input_refuted.

(** EOF() is accepted. *)
Theorem C99_empty_eof_refuted : (forall lev inx x q, ~ gquery lev inx empty_eof x q) /\
  exists c', file_function outs (start empty_eof) = Done xBoolean c' /\ errs c' = [] /\ toks c' = [].
Proof. exact empty_eof_refuted. Qed.
Print Assumptions C99_empty_eof_refuted.
