(** ADDR: cases, and what contradicts the statement. *)

From Coq Require Import ZArith Bool List Lia ZifyBool.
From Verif Require Import Words State StateLemmas Opcodes EncodeModel Machine VmSpec ExprModel ExprSpec ExprRun ExprOps ExprLoad ExprProofs ExprCases
  StmtModel StmtSpec StmtCases ArrModel ArrCases ActCases ActAccept AddrModel AddrSpec AddrMain.
Import ListNotations.
Open Scope Z_scope.

(** ADDR(v), with v at the place of the variable x1 of ActCases.v *)
Definition addr_tok := mkTok tSTDFUNC 0 txADDR nosym 1.
Definition addr_of (v : tok) := [addr_tok; kt tLPAREN; v; kt tRPAREN].
Lemma addr_grammar v : gaddr (addr_of v) v.
Proof. apply ga_addr; reflexivity. Qed.
Lemma addr_state : own_variable (vt x1) /\ names (vt x1) x1 /\ addressable 1 x1 /\ room vmc 1 /\ var_address 1 vmc x1 214.
Proof.
  split; [repeat split; vm_compute; congruence|]. split; [split; reflexivity|]. split; [exact x1_addressable|].
  split; [repeat split; vm_compute; congruence|]. apply x1_address. reflexivity.
Qed.

(** ADDR(v) of a parameter passed by reference, which contains the address 31: the address of
    the parameter itself. *)
Definition ref_tok := mkTok 0x5a 0 0 (tsym (vt x1)) 1.
Lemma reference_refuted : exists code c',
  gaddr (addr_of ref_tok) ref_tok /\ reference ref_tok /\ names ref_tok x1 /\ addressable 1 x1 /\
  addr_function (start_at 1 (addr_of ref_tok)) = Some (true, c') /\ errorless (start_at 1 (addr_of ref_tok)) c' [] code /\
  ~ gives_address 1 code ref_tok x1.
Proof.
  exists [mkOp oLAS 0 (voff x1)]. eexists. split; [apply addr_grammar|]. split; [reflexivity|]. split; [split; reflexivity|]. split; [exact x1_addressable|].
  split; [vm_compute; reflexivity|]. split; [repeat split; vm_compute; reflexivity|].
  intros H. destruct addr_state as (_ & _ & _ & R & V).
  destruct (proj2 (H vmc 214 R V) eq_refl 31) as (s' & E & P); [reflexivity|lia|].
  destruct P as (_ & _ & P & _). specialize (P 0%nat 31 eq_refl).
  vm_compute in E. injection E as <-. vm_compute in P. discriminate P.
Qed.

(** ADDR of a procedure or a function, :149, is never accepted. *)
Lemma routine_refuted : forall c a b v d rest p c', toks c = a :: b :: v :: d :: rest -> tk a = tSTDFUNC -> tsub a = txADDR -> tk b = tLPAREN ->
  tk v = 0x41 \/ tk v = 0x42 -> addr_function c = Some (p, c') -> errs c' <> errs c.
Proof.
  intros c a b v d rest p c' Tk A1 A2 B V H E. destruct (addr_accepted c p c' H E) as (_ & ts & w & T & G & K).
  destruct G as [a' b' w d' _ _ _ _]. rewrite Tk in T. cbn [app] in T. injection T as _ _ -> _. unfold own_variable, reference in K. lia.
Qed.

(** Nor is that of an element of an array or of a field. *)
Lemma component_refuted : forall c a b v d rest p c', toks c = a :: b :: v :: d :: rest -> tk a = tSTDFUNC -> tsub a = txADDR -> tk b = tLPAREN ->
  tk d = 0x5b \/ tk d = 0x2e -> addr_function c = Some (p, c') -> errs c' <> errs c.
Proof.
  intros c a b v d rest p c' Tk A1 A2 B V H E. destruct (addr_accepted c p c' H E) as (_ & ts & w & T & G & K).
  destruct G as [a' b' w d' _ _ _ D]. rewrite Tk in T. cbn [app] in T. injection T as _ _ _ -> _. rewrite D in V. destruct V; discriminate.
Qed.
