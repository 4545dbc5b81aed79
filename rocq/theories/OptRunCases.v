(** A case for the whole of the optimizer *)

From Coq Require Import ZArith Bool List Lia ZifyBool.
From Verif Require Import State Opcodes Machine VmSpec EncodeSpec OptSpec OptExcept PoptModel PoptLongModel StrOptSpec OptRunSpec.
Import ListNotations.
Open Scope Z_scope.

(** Space is reserved; x := x + 1; y := 2 + 3; if y = x then x := 0 + x; then a call and an operation on a file *)
Definition run_code : list opType :=
  [mkOp oLABEL 0 1; mkOp oINDS 0 100; mkOp oINDS 0 65534; mkOp oLD 0 4; mkOp oPUSH 0 1; mkOp oADD 0 0; mkOp oST 0 4; mkOp oPUSH 0 2; mkOp oPUSH 0 3; mkOp oADD 0 0; mkOp oST 0 6;
   mkOp oLD 0 6; mkOp oLD 0 4; mkOp oEQU 0 0; mkOp oJEQUZ 0 2; mkOp oPUSH 0 0; mkOp oLD 0 4; mkOp oADD 0 0; mkOp oST 0 4; mkOp oLABEL 0 2;
   mkOp oPCAL 0 7; mkOp oPUSH 0 0; mkOp oSYSIO 0 3; mkOp oEND 0 0].
Definition run_opt : list opType :=
  [mkOp oLABEL 0 1; mkOp oINDS 0 98; mkOp oLD 0 4; mkOp oINC 0 0; mkOp oST 0 4; mkOp oPUSHB 5 0; mkOp oDUP 0 0; mkOp oST 0 6;
   mkOp oLD 0 4; mkOp oJNEQ 0 2; mkOp oLD 0 4; mkOp oST 0 4; mkOp oLABEL 0 2;
   mkOp oPCAL 0 7; mkOp oPUSHB 0 0; mkOp oSYSIO 0 3; mkOp oEND 0 0].
Lemma run_label : has_label run_code.
Proof. exists [], (mkOp oLABEL 0 1), (tl run_code). split; [reflexivity|]. split; [reflexivity|]. intros x []. Qed.
Lemma run_wf : Forall wf_op run_code.
Proof.
  unfold run_code. repeat apply Forall_cons; try apply Forall_nil; unfold wf_op; cbn [op arg1 arg2]; repeat split; try discriminate; try reflexivity; try lia.
Qed.
Lemma run_plain : plain run_code.
Proof.
  split; [|reflexivity]. intros o I. cbn [run_code In] in I. repeat (destruct I as [<-|I]; [cbn; intuition discriminate|]). destruct I.
Qed.
Lemma run_result : optimize 40 40 200 run_code = OResult run_opt.
Proof. vm_compute. reflexivity. Qed.
