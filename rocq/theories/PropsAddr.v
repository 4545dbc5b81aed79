(** Properties of ADDR. *)

From Coq Require Import ZArith Bool List Lia.
From Verif Require Import State Opcodes EncodeModel Machine VmSpec ExprModel ExprSpec ExprRun ExprLoad ExprCases StmtModel StmtSpec StmtCases
  ArrModel ArrCases ActCases AddrModel AddrSpec AddrMain AddrCases.
Import ListNotations.
Open Scope Z_scope.

(** ** C102 ADDR *)

(** Partial: v is not a parameter passed by reference. *)
Theorem C102_addr_partial : forall lev ts v x, gaddr ts v -> own_variable v -> names v x -> addressable lev x ->
  exists code,
    (forall c rest, toks c = ts ++ rest -> g_level c = lev ->
       exists c', addr_function c = Some (true, c') /\ errorless c c' rest code) /\
    gives_address lev code v x.
Proof. exact addr_partial. Qed.
Print Assumptions C102_addr_partial.

(** A variable of the procedure at level 1, at the address 214 *)
Example C102_case : gaddr (addr_of (vt x1)) (vt x1) /\
  own_variable (vt x1) /\ names (vt x1) x1 /\ addressable 1 x1 /\ room vmc 1 /\ var_address 1 vmc x1 214.
Proof. split; [apply addr_grammar|exact addr_state]. Qed.

(** What is accepted is ADDR with the name of a variable. *)
Theorem C102_accepted : forall c p c', addr_function c = Some (p, c') -> errs c' = errs c ->
  p = true /\ exists ts v, toks c = ts ++ toks c' /\ gaddr ts v /\ (own_variable v \/ reference v).
Proof. exact addr_accepted. Qed.
Print Assumptions C102_accepted.

Example C102_accepted_case : exists c', addr_function (start_at 1 (addr_of (vt x1))) = Some (true, c') /\ errs c' = [] /\ toks c' = [].
Proof. eexists. split; [vm_compute; reflexivity|]. split; reflexivity. Qed.

(** ADDR of a parameter passed by reference is the address of the parameter, not that of the
    variable. *)
Theorem C102_reference_refuted : exists code c',
  gaddr (addr_of ref_tok) ref_tok /\ reference ref_tok /\ names ref_tok x1 /\ addressable 1 x1 /\
  addr_function (start_at 1 (addr_of ref_tok)) = Some (true, c') /\ errorless (start_at 1 (addr_of ref_tok)) c' [] code /\
  ~ gives_address 1 code ref_tok x1.
Proof. exact reference_refuted. Qed.
Print Assumptions C102_reference_refuted.

(** This is so for all parameters passed by reference. *)
Theorem C102_reference_always_refuted : forall lev ts v x, gaddr ts v -> reference v -> names v x -> addressable lev x ->
  exists code,
    (forall c rest, toks c = ts ++ rest -> g_level c = lev ->
       exists c', addr_function c = Some (true, c') /\ errorless c c' rest code) /\
    forall s p a, room s 1 -> var_address lev s x p -> contains s xWord p a -> a <> p ->
      forall s', exec_list code s = Ok s' -> ~ pushed s s' [a].
Proof. exact reference_never. Qed.
Print Assumptions C102_reference_always_refuted.

Example C102_reference_case : reference ref_tok /\ names ref_tok x1 /\ addressable 1 x1 /\ room vmc 1 /\ var_address 1 vmc x1 214 /\
  contains vmc xWord 214 31.
Proof.
  destruct addr_state as (_ & _ & A & B & C). split; [reflexivity|]. split; [split; reflexivity|]. split; [exact A|]. split; [exact B|]. split; [exact C|]. reflexivity.
Qed.

(** ADDR of a procedure or function is never accepted, although the comment of the function
    allows it. *)
Theorem C102_routine_refuted : forall c a b v d rest p c', toks c = a :: b :: v :: d :: rest -> tk a = tSTDFUNC -> tsub a = txADDR -> tk b = tLPAREN ->
  tk v = 0x41 \/ tk v = 0x42 -> addr_function c = Some (p, c') -> errs c' <> errs c.
Proof. exact routine_refuted. Qed.
Print Assumptions C102_routine_refuted.

(** ADDR(v[…]) and ADDR(v.f) are never accepted. *)
Theorem C102_component_refuted : forall c a b v d rest p c', toks c = a :: b :: v :: d :: rest -> tk a = tSTDFUNC -> tsub a = txADDR -> tk b = tLPAREN ->
  tk d = 0x5b \/ tk d = 0x2e -> addr_function c = Some (p, c') -> errs c' <> errs c.
Proof. exact component_refuted. Qed.
Print Assumptions C102_component_refuted.
