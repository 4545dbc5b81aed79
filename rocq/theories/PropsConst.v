(** Properties of constant expressions. *)

From Coq Require Import ZArith Bool List Lia.
From Verif Require Import State ExprModel StmtModel ExprSpec ExprCases ConstModel ConstSpec ConstMain ConstTotal ConstAccept ConstCases.
Import ListNotations.
Open Scope Z_scope.

(** ** C72 The value of a constant expression *)

(** Missing: what [cgood] excludes, because the value is wrong there; see the
    refutations here and in C73. *)
Theorem C72_value_partial : forall ts e lo v, gcexpr ts e -> cval lo e = Some v -> cgood lo e = true ->
  forall s rest n, toks (kc s) = ts ++ rest -> ended rest -> (4 * length (toks (kc s)) + 4 <= n)%nat ->
  exists s', const_expression n lo s = KDone s' /\ only_tokens (kc s) (kc s') rest /\ result_is lo v s'.
Proof. exact const_value. Qed.
Print Assumptions C72_value_partial.

Example C72_case : gcexpr ex_const_tokens ex_const /\ cval 0 ex_const = Some (VI (-13)) /\ cgood 0 ex_const = true /\
  (gcexpr ex_set_tokens ex_set /\ (exists f, cval 0 ex_set = Some (VS f) /\ filter f (base 0) = [1; 17; 18; 19; 20; 40; 50; 51; 52; 53; 54; 55; 56; 57; 58; 59; 60]) /\
   cgood 0 ex_set = true) /\ ended [kt tSEMICOLON].
Proof.
  split; [exact ex_const_syntax|]. split; [reflexivity|]. split; [reflexivity|]. split.
  - split; [exact ex_set_syntax|]. split; [eexists; split; reflexivity|reflexivity].
  - vm_compute. intuition discriminate.
Qed.

Theorem C72_or_refuted : exists ts e s', gcexpr ts e /\ cval 0 e = Some (VI 7) /\ e = KSimple (KAdd (lit (LInt 4)) COr (KFactor (KLit (LInt 3)))) /\
  const_expression 60 0 (k0 ts) = KDone s' /\ errs (kc s') = [] /\ toks (kc s') = [kt tSEMICOLON] /\ ktok s' = tINT_CONST /\ kint s' = 1.
Proof. exact or_refuted. Qed.
Print Assumptions C72_or_refuted.

Theorem C72_relation_refuted : exists ts e s', gcexpr ts e /\ cval 0 e = Some (VB true) /\ e = KRel (lit (LInt 3)) (CRel Less) (lit (LInt 4)) /\
  const_expression 60 0 (k0 ts) = KDone s' /\ errs (kc s') <> [].
Proof. exact relation_refuted. Qed.
Print Assumptions C72_relation_refuted.

Theorem C72_odd_refuted : exists ts e s', gcexpr ts e /\ cval 0 e = Some (VB true) /\ e = KSimple (fac (KFun Odd (KSimple (lit (LInt 3))))) /\
  const_expression 60 0 (k0 ts) = KDone s' /\ errs (kc s') <> [].
Proof. exact odd_refuted. Qed.
Print Assumptions C72_odd_refuted.

Theorem C72_ord_refuted : exists ts e s', gcexpr ts e /\ cval 0 e = Some (VI 1) /\ e = KSimple (fac (KFun Ord (KSimple (lit (LBool true))))) /\
  const_expression 60 0 (k0 ts) = KDone s' /\ errs (kc s') = [] /\ toks (kc s') = [kt tSEMICOLON] /\ ktok s' = tINT_CONST /\ kint s' = -1.
Proof. exact ord_refuted. Qed.
Print Assumptions C72_ord_refuted.

Theorem C72_succ_refuted : exists ts e s', gcexpr ts e /\ cval 0 e = Some (VB true) /\ e = KSimple (fac (KFun Succ (KSimple (lit (LBool false))))) /\
  const_expression 60 0 (k0 ts) = KDone s' /\ errs (kc s') = [] /\ toks (kc s') = [kt tSEMICOLON] /\ ktok s' = tBOOLEAN_CONST /\
  kint s' = 1 /\ ~ result_is 0 (VB true) s'.
Proof. exact succ_refuted. Qed.
Print Assumptions C72_succ_refuted.

(** ** C73 Set constants *)

(** A range of numbers, as a set, is right exactly if it is a good one. *)
Theorem C73_ranges : forall lo a b s rest, 0 <= lo -> lo + 63 <= 65535 -> 0 <= a < 64 -> 0 <= b < 64 ->
  toks (kc s) = range_tokens lo a b ++ rest -> ended rest ->
  (exists n s', const_expression n lo s = KDone s' /\ result_is lo (VS (fun z => (lo + a <=? z) && (z <=? lo + b))) s') <-> good_range a b = true.
Proof. exact ranges. Qed.
Print Assumptions C73_ranges.

Example C73_case : toks (kc (k0 (range_tokens 10 3 40))) = range_tokens 10 3 40 ++ [kt tSEMICOLON] /\ ended [kt tSEMICOLON] /\
  gcexpr (range_tokens 10 3 40) (range_expr 10 3 40) /\
  good_range 3 40 = true /\ good_range 15 20 = false /\ const_expression 60 0 (k0 (range_tokens 0 15 20)) = KUndefined.
Proof.
  split; [reflexivity|]. split; [vm_compute; intuition discriminate|]. split; [apply range_syntax|]. vm_compute. auto.
Qed.

Theorem C73_difference_refuted : exists ts e f s', gcexpr ts e /\ cval 0 e = Some (VS f) /\ f 1 = true /\
  e = KSimple (KAdd (fac (KSet [One (LInt 1); One (LInt 2)])) CMinus (KFactor (KSet [One (LInt 2)]))) /\
  const_expression 60 0 (k0 ts) = KDone s' /\ errs (kc s') = [] /\ toks (kc s') = [kt tSEMICOLON] /\ ktok s' = tSET_CONST /\ kset s' = [0; 0; 0; 0].
Proof. exact difference_refuted. Qed.
Print Assumptions C73_difference_refuted.

Theorem C73_sum_refuted : exists ts e f s', gcexpr ts e /\ cval 0 e = Some (VS f) /\ f 2 = true /\
  e = KSimple (KAdd (KAdd (fac (KSet [One (LInt 1)])) CPlus (KFactor (KSet [One (LInt 2)]))) CPlus (KFactor (KSet [One (LInt 3)]))) /\
  const_expression 60 0 (k0 ts) = KDone s' /\ errs (kc s') = [] /\ toks (kc s') = [kt tSEMICOLON] /\ ktok s' = tSET_CONST /\ kset s' = [10; 0; 0; 0].
Proof. exact sum_refuted. Qed.
Print Assumptions C73_sum_refuted.

Theorem C73_intersection_refuted : exists ts e f s', gcexpr ts e /\ cval 0 e = Some (VS f) /\
  e = KSimple (KTerm Unsigned (KMul (KFactor (KSet [One (LInt 1)])) Times (KSet [One (LInt 1)]))) /\
  const_expression 60 0 (k0 ts) = KDone s' /\ errs (kc s') <> [].
Proof. exact intersection_refuted. Qed.
Print Assumptions C73_intersection_refuted.

Theorem C73_overwrite_refuted : exists ts e f s', gcexpr ts e /\ cval 0 e = Some (VS f) /\ f 5 = true /\
  e = KSimple (fac (KSet [One (LInt 5); Range (LInt 1) (LInt 3)])) /\
  const_expression 60 0 (k0 ts) = KDone s' /\ errs (kc s') = [] /\ toks (kc s') = [kt tSEMICOLON] /\ ktok s' = tSET_CONST /\ kset s' = [14; 0; 0; 0].
Proof. exact overwrite_refuted. Qed.
Print Assumptions C73_overwrite_refuted.

Theorem C73_outside_refuted : exists ts us e e', gcexpr ts e /\ gcexpr us e' /\ clax e = Some tSET_CONST /\ clax e' = Some tSET_CONST /\
  e = KSimple (fac (KSet [One (LInt 64)])) /\ e' = KSimple (fac (KSet [One (LBool true)])) /\
  const_expression 60 0 (k0 ts) = KUndefined /\ const_expression 60 0 (k0 us) = KUndefined.
Proof. exact outside_refuted. Qed.
Print Assumptions C73_outside_refuted.

(** ** C74 What is accepted as a constant is a constant expression *)

Theorem C74_accepted_partial : forall n lo s s', const_expression n lo s = KDone s' -> errs (kc s') = errs (kc s) -> Forall wf_const (toks (kc s)) ->
  exists ts e rest, toks (kc s) = ts ++ rest /\ only_tokens (kc s) (kc s') rest /\ gcexpr ts e /\ clax e = Some (ktok s').
Proof. exact const_accepted. Qed.
Print Assumptions C74_accepted_partial.

Example C74_case : exists s', const_expression 60 0 (k0 ex_const_tokens) = KDone s' /\ errs (kc s') = errs (kc (k0 ex_const_tokens)) /\
  Forall wf_const (toks (kc (k0 ex_const_tokens))) /\ toks (kc s') = [kt tSEMICOLON] /\ clax ex_const = Some tINT_CONST.
Proof.
  eexists. split; [vm_compute; reflexivity|]. split; [reflexivity|]. split; [|split; reflexivity].
  repeat apply Forall_cons; try apply Forall_nil; (split; [split|]; vm_compute; try discriminate; intros [] N; try discriminate; destruct N; auto).
Qed.

Theorem C74_odd_refuted : exists ts s', Forall wf_tok (ts ++ [kt tSEMICOLON]) /\ ts = call txODD [nt 3; nt 4] /\
  const_expression 60 0 (k0 ts) = KDone s' /\ errs (kc s') = [] /\ toks (kc s') = [kt tSEMICOLON] /\ ktok s' = tINT_CONST /\ out (kc s') <> [] /\
  forall e, ~ gcexpr ts e.
Proof. exact odd_accepted_refuted. Qed.
Print Assumptions C74_odd_refuted.

Theorem C74_real_refuted : exists ts e s', gcexpr ts e /\ e = KSimple (fac (KFun RealFun (KSimple (lit (LInt 16))))) /\ ts = call txSQRT [nt 16] /\ cval 0 e = None /\
  const_expression 60 0 (k0 ts) = KDone s' /\ errs (kc s') = [] /\ toks (kc s') = [kt tSEMICOLON] /\ ktok s' = tINT_CONST /\ kint s' = 16.
Proof. exact real_refuted. Qed.
Print Assumptions C74_real_refuted.

Theorem C74_sign_refuted : exists ts e, gcexpr ts e /\ e = KSimple (KTerm Negative (KFactor (KLit (LChar 97)))) /\ clax e = None /\
  const_expression 60 0 (k0 ts) = KUndefined.
Proof. exact sign_refuted. Qed.
Print Assumptions C74_sign_refuted.

(** ** C75 The evaluation of a constant ends *)

Theorem C75_ends : forall n lo s, (4 * length (toks (kc s)) + 4 <= n)%nat -> const_expression n lo s <> KNoFuel.
Proof. exact const_ends. Qed.
Print Assumptions C75_ends.

Theorem C75_same : forall n m lo s, (n <= m)%nat -> const_expression n lo s <> KNoFuel -> const_expression m lo s = const_expression n lo s.
Proof. exact const_fuel. Qed.
Print Assumptions C75_same.

Example C75_case : exists s', const_expression 60 0 (k0 ex_const_tokens) = KDone s' /\ (4 * length (toks (kc (k0 ex_const_tokens))) + 4 <= 60)%nat.
Proof. eexists. split; [vm_compute; reflexivity|vm_compute; lia]. Qed.
