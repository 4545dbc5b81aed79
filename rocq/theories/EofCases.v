(** Eof, Eoln, SeekEof and SeekEoln: cases, and what contradicts Pascal. *)

From Coq Require Import ZArith Bool List Arith Lia ZifyBool.
From Verif Require Import Words State Opcodes EncodeModel Machine VmSpec ExprModel ExprSpec ExprRun ExprOps ExprLoad ExprProofs ExprCases
  StmtModel ArrModel ArrCases WriteModel WriteSpec WriteRun WriteMain WriteCases ReadModel FileModel FileSpec FileMain FileCases EofModel EofSpec EofMain.
From Verif Require SysioModel SysioSpec.
Import ListNotations.
Open Scope Z_scope.

Definition stf (p : Z) := mkTok tSTDFUNC 0 p nosym 1.
(** SEEKEOF(f) and so on; f contains 2 *)
Definition q_tokens (q : query) := [stf (qword q); kt tLPAREN; filev; kt tRPAREN].
Lemma q_grammar q : gquery 0 outv (q_tokens q) fx q.
Proof.
  apply (gq_file 0 outv (stf (qword q)) (kt tLPAREN) filev fx (kt tRPAREN) q); try reflexivity.
  - split; [left; reflexivity|]. repeat split.
  - repeat split; vm_compute; congruence.
Qed.
(** The file 2 is open, [l] is left *)
Definition open_with (l : list Z) : SysioModel.io :=
  SysioModel.put io0 2 (SysioModel.mkEntry [97] true true false 1 (Some (SysioModel.mkStream l [] false)) SysioModel.eOPEN_READ).
Lemma q_state q : room vmf 1 /\ located 0 vmf fx (fl_env fx) /\ SysioSpec.readable (open_with [32; 10]) (fl_env fx) (SysioModel.mkStream [32; 10] [] false) /\
  suited q opening (fl_env fx) (SysioModel.mkStream [32; 10] [] false).
Proof.
  split; [run|]. split; [exact (proj1 (proj2 fl_state) fx (or_introl eq_refl))|].
  split; [split; [vm_compute; split; [discriminate|reflexivity]|split; [apply Nat.leb_le; reflexivity|split; reflexivity]]|].
  destruct q; cbn; auto. split; [discriminate|]. split; [reflexivity|discriminate].
Qed.
Lemma q_compiled q : exists c', file_function outs (start (q_tokens q)) = Done xBoolean c' /\ errs c' = [] /\ toks c' = [].
Proof. destruct q; (eexists; split; [vm_compute; reflexivity|split; reflexivity]). Qed.

(** ** What contradicts Pascal *)

Definition compiles (q : query) (code : list opType) : Prop :=
  exists c', file_function outs (start (q_tokens q)) = Done xBoolean c' /\ errorless (start (q_tokens q)) c' [] code.
Ltac compiled := eexists; split; [vm_compute; reflexivity|repeat split; vm_compute; reflexivity].

(** SEEKEOF and SEEKEOLN answer that a character follows and remove it. *)
Lemma seek_loses_refuted : exists code1 code2, compiles QSeekEof code1 /\ compiles QSeekEoln code2 /\
  forall code r, code = code1 \/ code = code2 ->
    on_top (exec_io opening code vmf (open_with (32 :: 97 :: r))) = Some 0 /\
    left_in (exec_io opening code vmf (open_with (32 :: 97 :: r))) 2 = Some r.
Proof. eexists _, _. split; [compiled|]. split; [compiled|]. intros code r [-> | ->]; split; vm_compute; reflexivity. Qed.

(** SEEKEOLN removes the end of the line it finds; the READLN operation that follows takes
    the next line as well. *)
Lemma seek_line_refuted : exists code, compiles QSeekEoln code /\
  forall r, on_top (exec_io opening code vmf (open_with (32 :: 10 :: 97 :: 10 :: r))) = Some 65535 /\
    left_in (exec_io opening (code ++ [refer 0 oLDS fx; io_code SysioModel.xREADLN]) vmf (open_with (32 :: 10 :: 97 :: 10 :: r))) 2 = Some r.
Proof. eexists. split; [compiled|]. intros r. split; vm_compute; reflexivity. Qed.

(** SEEKEOLN is false at the end of the file. *)
Lemma seek_end_refuted : exists code, compiles QSeekEoln code /\ on_top (exec_io opening code vmf (open_with [])) = Some 0.
Proof. eexists. split; [compiled|]. vm_compute. reflexivity. Qed.

(** EOLN is false in front of the end of a line. *)
Lemma eoln_front_refuted : exists code, compiles QEoln code /\
  forall r, on_top (exec_io opening code vmf (open_with (10 :: r))) = Some 0.
Proof. eexists. split; [compiled|]. intros r. vm_compute. reflexivity. Qed.

(** EOLN of a file that is not open is no error. *)
Lemma eoln_closed_refuted : exists code, compiles QEoln code /\ SysioModel.e_str (SysioModel.ent io0 2) = None /\
  on_top (exec_io opening code vmf io0) = Some 0.
Proof. eexists. split; [compiled|]. split; vm_compute; reflexivity. Qed.

(** EOF without a file, INPUT is empty: it is false. *)
Definition eof_tokens := [stf txEOF].
Definition vmi := mkSt (fun _ => 0) (mkCfg 4096 200 2000 0 1000) 206 0 200 0 0 0.
Lemma eof_input_refuted : exists code c', gquery 0 outv eof_tokens outv QEof /\
  file_function outs (start eof_tokens) = Done xBoolean c' /\ errorless (start eof_tokens) c' [] code /\
  located 0 vmi outv 0 /\ SysioSpec.readable io0 0 (SysioModel.mkStream [] [] false) /\ on_top (exec_io opening code vmi io0) = Some 0.
Proof.
  eexists _, _. split; [apply (gq_none 0 outv (stf txEOF) QEof); reflexivity|]. split; [vm_compute; reflexivity|]. split; [repeat split; vm_compute; reflexivity|].
  split.
  { intros s' R Sm. exists 200. destruct R as (C & _). split; [unfold var_address, global_ea, word16; cbn [vlev Z.eqb outv voff]; rewrite C; split; [lia|exists 0; reflexivity]|].
    split; [vm_compute; congruence|]. unfold contains. cbn [vty outv]. rewrite Sm by (vm_compute; congruence). vm_compute. reflexivity. }
  split; [split; [lia|split; [apply Nat.leb_le; reflexivity|split; reflexivity]]|]. vm_compute. reflexivity.
Qed.

(** EOF() is accepted. *)
Definition empty_eof := [stf txEOF; kt tLPAREN; kt tRPAREN].
Lemma empty_eof_refuted : (forall lev inx x q, ~ gquery lev inx empty_eof x q) /\
  exists c', file_function outs (start empty_eof) = Done xBoolean c' /\ errs c' = [] /\ toks c' = [].
Proof. split; [intros lev inx x q G; inversion G|]. eexists. split; [vm_compute; reflexivity|split; reflexivity]. Qed.
