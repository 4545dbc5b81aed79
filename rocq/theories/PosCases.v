(** FilePos, FileSize and Seek: cases. *)

From Coq Require Import ZArith Bool List Arith Lia ZifyBool.
From Verif Require Import Words State Opcodes EncodeModel Machine VmSpec ExprModel ExprSpec ExprRun ExprOps ExprLoad ExprProofs ExprCases
  StmtModel ArrModel ArrCases WriteModel WriteSpec WriteRun WriteMain WriteCases FileModel FileSpec FileMain FileCases EofCases PosModel PosSpec PosMain.
Import ListNotations.
Open Scope Z_scope.

(** FILESIZE(f) *)
Definition size_call := [stf txFILESIZE; kt tLPAREN; filev; kt tRPAREN].
Lemma size_call_grammar : gpos size_call.
Proof. exists (stf txFILESIZE), (kt tLPAREN), filev, (kt tRPAREN), fx. split; [reflexivity|]. split; [reflexivity|]. split; [right; reflexivity|]. split; [reflexivity|]. split; [split; [left; reflexivity|repeat split]|reflexivity]. Qed.

(** FILEPOS(1 f) *)
Definition odd_call := [stf txFILEPOS; kt tLPAREN; nt 1; filev; kt tRPAREN].
Lemma odd_accepted : ~ gpos odd_call /\
  exists c', pos_function (start odd_call) = Done xLongInteger c' /\ errs c' = [] /\ toks c' = [].
Proof.
  split; [intros (a & b & f & d & x & Q & _); discriminate Q|]. eexists. split; [vm_compute; reflexivity|split; reflexivity].
Qed.

(** SEEK(f, 100000); f contains 2 *)
Definition seek_tokens := [std txSEEK; kt tLPAREN; filev; kt tCOMMA; nt 100000; kt tRPAREN].
Definition seek_to := ESimple (STerm false (TFactor (FInt 100000))).
Lemma seek_grammar : gseek 0 seek_tokens fx seek_to.
Proof.
  apply (gs_seek 0 (std txSEEK) (kt tLPAREN) filev fx (kt tCOMMA) [nt 100000] seek_to (kt tRPAREN)); try reflexivity.
  - split; [left; reflexivity|]. repeat split.
  - repeat split; vm_compute; congruence.
  - apply g_simple, g_term, g_factor, g_int; reflexivity.
  - intros y [].
Qed.
Lemma seek_state : evalue fl_env xLongInteger seek_to = Some 100000 /\ room vmf 12 /\
  (forall y, In y (fx :: evars seek_to) -> located 0 vmf y (fl_env y)) /\ 0 <= fl_env fx < 8.
Proof.
  split; [reflexivity|]. split; [exact (proj1 fl_state)|]. split; [|vm_compute; split; [discriminate|reflexivity]].
  intros y [<-|[]]. exact (proj1 (proj2 fl_state) fx (or_introl eq_refl)).
Qed.
