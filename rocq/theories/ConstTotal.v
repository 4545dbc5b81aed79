(** The evaluation of constant expressions always ends, and does not depend on the
    fuel. *)

From Coq Require Import ZArith Bool List Lia ZifyBool.
From Verif Require Import Words State ExprModel StmtModel ExprSpec ExprParse ExprTotal ConstModel ConstSpec ConstParts ConstMain.
Import ListNotations.
Open Scope Z_scope.

(** ** More fuel does not change the result *)

Definition keepk (r r' : kres) : Prop := r <> KNoFuel -> r' = r.
Lemma keepk_refl r : keepk r r.
Proof. intros _. reflexivity. Qed.
Lemma keepk_bind r r' k k' : keepk r r' -> (forall s, keepk (k s) (k' s)) -> keepk (bindk r k) (bindk r' k').
Proof.
  intros H K N. destruct r; cbn [bindk] in *; try (rewrite H by discriminate; reflexivity).
  - rewrite H by discriminate. cbn. apply K. exact N.
  - destruct N; reflexivity.
Qed.
Lemma keepk_bindi o k k' : (forall z, keepk (k z) (k' z)) -> keepk (bindi o k) (bindi o k').
Proof. intros H. destruct o; [apply H|apply keepk_refl]. Qed.

Lemma subsets_keep n : forall lo s, keepk (subsets n lo s) (subsets (S n) lo s).
Proof.
  induction n as [|n IH]; intros lo s; [intros N; destruct N; reflexivity|].
  change (subsets (S (S n)) lo s) with (bindk (subset lo s) (fun s => if ktoken s =? tCOMMA then subsets (S n) lo (knext s) else KDone s)).
  change (subsets (S n) lo s) with (bindk (subset lo s) (fun s => if ktoken s =? tCOMMA then subsets n lo (knext s) else KDone s)).
  apply keepk_bind; [apply keepk_refl|]. intros s'. destruct (_ =? _); [apply IH|apply keepk_refl].
Qed.
Lemma constructor_keep n lo s : keepk (set_constructor n lo s) (set_constructor (S n) lo s).
Proof.
  unfold set_constructor. cbv zeta. apply keepk_bind; [|intros; apply keepk_refl]. destruct (_ =? _); [apply keepk_refl|].
  apply keepk_bind; [apply subsets_keep|intros; apply keepk_refl].
Qed.
Lemma function_keep n arg arg' s : (forall s, keepk (arg s) (arg' s)) -> keepk (constant_function n arg s) (constant_function (S n) arg' s).
Proof.
  intros H. unfold constant_function. cbv zeta.
  repeat match goal with
  | |- keepk (if ?b then _ else _) _ => destruct b
  | |- keepk (bindk (arg _) _) _ => apply keepk_bind; [apply H|intros]
  | |- keepk ?a ?a => apply keepk_refl
  end.
  set (s1 := constant _ _ _). destruct (ExprTotal.all_keep n) as (K & _). intros N.
  specialize (K xAnyOrdinal (kc s1)). unfold keeps in K.
  destruct (expression n xAnyOrdinal (kc s1)) eqn:E; [rewrite K by discriminate; reflexivity|destruct N; reflexivity|rewrite K by discriminate; reflexivity].
Qed.

Lemma const_keep n :
  (forall lo s, keepk (const_expression n lo s) (const_expression (S n) lo s)) /\
  (forall lo s, keepk (const_simple n lo s) (const_simple (S n) lo s)) /\
  (forall lo t v l s, keepk (const_terms n lo t v l s) (const_terms (S n) lo t v l s)) /\
  (forall lo s, keepk (const_term n lo s) (const_term (S n) lo s)) /\
  (forall lo t v s, keepk (const_factors n lo t v s) (const_factors (S n) lo t v s)) /\
  (forall lo s, keepk (const_factor n lo s) (const_factor (S n) lo s)).
Proof.
  induction n as [|n (IE & IS & ITs & IT & IFs & IF)].
  { repeat match goal with |- _ /\ _ => split end; intros; intros N; destruct N; reflexivity. }
  repeat match goal with |- _ /\ _ => split end.
  - intros lo s. rewrite (const_expression_S (S n)), (const_expression_S n). cbv zeta. apply keepk_bind; [apply IS|]. intros s1.
    destruct (_ || _); [|apply keepk_refl]. apply keepk_bind; [apply IS|]. intros. apply keepk_refl.
  - intros lo s. rewrite (const_simple_S (S n)), (const_simple_S n). cbv zeta. apply keepk_bind; [apply IT|]. intros s1.
    destruct (_ && _); [apply keepk_refl|]. apply keepk_bindi. intros. apply ITs.
  - intros lo t v l s. rewrite (const_terms_S (S n)), (const_terms_S n). cbv zeta. destruct (is_add_constant _ _); [|apply keepk_refl].
    apply keepk_bind; [apply IT|]. intros s1. destruct (_ =? tINT_CONST); [apply keepk_bindi; intros; apply ITs|]. destruct (_ =? tBOOLEAN_CONST); apply ITs.
  - intros lo s. rewrite (const_term_S (S n)), (const_term_S n). apply keepk_bind; [apply IF|]. intros. apply IFs.
  - intros lo t v s. rewrite (const_factors_S (S n)), (const_factors_S n). cbv zeta. destruct (is_mul_constant _ _); [|apply keepk_refl].
    apply keepk_bind; [apply IF|]. intros s1. destruct (_ =? tSET_CONST); [apply IFs|]. apply keepk_bindi; intros; apply IFs.
  - intros lo s. rewrite (const_factor_S (S n)), (const_factor_S n). cbv zeta.
    destruct (existsb _ _); [apply keepk_refl|]. destruct (existsb _ _); [apply keepk_refl|].
    destruct (_ =? tLBRACKET); [apply constructor_keep|]. destruct (_ =? tNOT); [apply keepk_bind; [apply IF|]; intros; apply keepk_refl|].
    destruct (_ =? tSTDFUNC); [|apply keepk_refl]. apply function_keep. intros. apply IE.
Qed.

Theorem const_fuel n m lo s : (n <= m)%nat -> const_expression n lo s <> KNoFuel -> const_expression m lo s = const_expression n lo s.
Proof.
  intros L N. induction L as [|m L IH]; [reflexivity|].
  destruct (const_keep m) as (H & _). rewrite <- IH. apply H. rewrite IH. exact N.
Qed.

(** ** Tokens are only consumed, errors only added *)

Definition klen (s : cst) : nat := length (toks (kc s)).
Definition moves (s s' : cst) : Prop := (klen s' <= klen s)%nat /\ grows (kc s) (kc s').
Lemma moves_refl s : moves s s.
Proof. split; [lia|apply grows_refl]. Qed.
Lemma moves_trans a b c : moves a b -> moves b c -> moves a c.
Proof. intros (A & A') (B & B'). split; [lia|eapply grows_trans; eassumption]. Qed.
Lemma moves_next s : moves s (knext s).
Proof. split; [apply len_get|apply grows_get]. Qed.
Lemma moves_error e s : moves s (kerror e s).
Proof. split; [unfold klen; cbn; lia|]. apply local_grows, local_error. Qed.
Lemma moves_error_if b e s : moves s (kerror_if b e s).
Proof. destruct b; [apply moves_error|apply moves_refl]. Qed.
Lemma moves_constant t v s : moves s (constant t v s).
Proof. split; [unfold klen; cbn; lia|apply grows_refl]. Qed.
Lemma moves_set l s : moves s (with_set l s).
Proof. split; [unfold klen; cbn; lia|apply grows_refl]. Qed.
Lemma moves_lparen s : moves s (check_lparen s).
Proof. unfold check_lparen. cbv zeta. destruct (_ =? _); (eapply moves_trans; [apply moves_next|]); [apply moves_next|apply moves_error]. Qed.
Lemma moves_rparen s : moves s (check_rparen s).
Proof. unfold check_rparen. destruct (_ =? _); [apply moves_next|apply moves_error]. Qed.
Lemma moves_compare o t a l s : moves s (compare_constants o t a l s).
Proof. unfold compare_constants. cbv zeta. ifs; try apply moves_constant; apply moves_error. Qed.
Global Hint Resolve moves_refl moves_next moves_error moves_error_if moves_constant moves_set moves_lparen moves_rparen moves_compare : moves.

Definition Moves (s : cst) (r : kres) : Prop := forall s', r = KDone s' -> moves s s'.
Lemma Moves_done s s' : moves s s' -> Moves s (KDone s').
Proof. intros H s2 E. replace s2 with s' by congruence. exact H. Qed.
Lemma Moves_bind s r k : Moves s r -> (forall s1, moves s s1 -> Moves s (k s1)) -> Moves s (bindk r k).
Proof. intros H K. destruct r; cbn; try (intros s' E; discriminate E). apply K. apply H. reflexivity. Qed.
Lemma Moves_bindi s o k : (forall z, Moves s (k z)) -> Moves s (bindi o k).
Proof. intros H. destruct o; cbn; [apply H|intros s' E; discriminate E]. Qed.
Lemma Moves_bindl s o s1 k : (forall l, Moves s (k (with_set l s1))) -> Moves s (bindl o s1 k).
Proof. intros H. destruct o; cbn; [apply H|intros s' E; discriminate E]. Qed.
Lemma Moves_trans s s1 r : moves s s1 -> Moves s1 r -> Moves s r.
Proof. intros H K s' E. eapply moves_trans; [exact H|apply K, E]. Qed.
Lemma Moves_none s r : (forall s', r <> KDone s') -> Moves s r.
Proof. intros H s' E. destruct (H _ E). Qed.

Ltac mv := repeat match goal with
  | |- Moves _ (KDone _) => apply Moves_done
  | |- Moves _ (bindi _ _) => apply Moves_bindi; intros
  | |- Moves _ KNoFuel => apply Moves_none; discriminate
  | |- Moves _ KNotModelled => apply Moves_none; discriminate
  | |- Moves _ KUndefined => apply Moves_none; discriminate
  | |- moves ?a ?a => apply moves_refl
  | H : moves ?a ?b |- moves ?a ?b => exact H
  | |- moves _ (knext _) => eapply moves_trans; [|apply moves_next]
  | |- moves _ (kerror _ _) => eapply moves_trans; [|apply moves_error]
  | |- moves _ (kerror_if _ _ _) => eapply moves_trans; [|apply moves_error_if]
  | |- moves _ (constant _ _ _) => eapply moves_trans; [|apply moves_constant]
  | |- moves _ (with_set _ _) => eapply moves_trans; [|apply moves_set]
  | |- moves _ (check_lparen _) => eapply moves_trans; [|apply moves_lparen]
  | |- moves _ (check_rparen _) => eapply moves_trans; [|apply moves_rparen]
  | |- moves _ (compare_constants _ _ _ _ _) => eapply moves_trans; [|apply moves_compare]
  | |- moves _ (if ?b then _ else _) => destruct b
  end.

Lemma subset_moves lo s : Moves s (subset lo s).
Proof.
  unfold subset. cbv zeta. destruct (negb _); [mv|]. destruct (_ =? _).
  - destruct (negb _); [mv|]. apply Moves_bindl. intros. mv.
  - apply Moves_bindl. intros. mv.
Qed.
Lemma subsets_moves n : forall lo s, Moves s (subsets n lo s).
Proof.
  induction n as [|n IH]; intros lo s; [apply Moves_none; discriminate|]. cbn [subsets]. apply Moves_bind; [apply subset_moves|]. intros s1 M.
  destruct (_ =? _); [|mv]. eapply Moves_trans; [|apply IH]. mv.
Qed.
Lemma constructor_moves n lo s : Moves s (set_constructor n lo s).
Proof.
  unfold set_constructor. cbv zeta. apply Moves_bind; [|intros; mv]. destruct (_ =? _); [mv|].
  apply Moves_bind; [eapply Moves_trans; [|apply subsets_moves]; mv|]. intros. mv.
Qed.
Lemma expr_moves n f s t c : expression n f (kc s) = Done t c -> moves s (with_comp c s).
Proof.
  intros E. split; [exact (proj1 (all_eat n) f _ _ _ E)|exact (proj1 (all_grow n) f _ _ _ E)].
Qed.
Lemma function_moves n arg s : (forall s, Moves s (arg s)) -> Moves s (constant_function n arg s).
Proof.
  intros H. unfold constant_function. cbv zeta.
  repeat match goal with
  | |- Moves _ (if ?b then _ else _) => destruct b
  | |- Moves _ (bindk (arg _) _) => apply Moves_bind; [eapply Moves_trans; [|apply H]; mv|intros]
  end; mv.
  set (s2 := constant _ _ (kerror_if _ _ _)).
  destruct (expression n xAnyOrdinal (kc s2)) eqn:E; mv. apply expr_moves in E. eapply moves_trans; [|exact E]. unfold s2. mv.
Qed.

Lemma const_moves n :
  (forall lo s, Moves s (const_expression n lo s)) /\ (forall lo s, Moves s (const_simple n lo s)) /\
  (forall lo t v l s, Moves s (const_terms n lo t v l s)) /\ (forall lo s, Moves s (const_term n lo s)) /\
  (forall lo t v s, Moves s (const_factors n lo t v s)) /\ (forall lo s, Moves s (const_factor n lo s)).
Proof.
  induction n as [|n (IE & IS & ITs & IT & IFs & IF)]; [repeat match goal with |- _ /\ _ => split end; intros; apply Moves_none; discriminate|].
  repeat match goal with |- _ /\ _ => split end.
  - intros lo s. rewrite const_expression_S. cbv zeta. apply Moves_bind; [apply IS|]. intros s1 M. destruct (_ || _); [|mv].
    apply Moves_bind; [eapply Moves_trans; [exact M|apply IS]|]. intros. mv.
  - intros lo s. rewrite const_simple_S. cbv zeta. apply Moves_bind.
    + eapply Moves_trans; [|apply IT]. mv.
    + intros s1 M. destruct (_ && _); mv. eapply Moves_trans; [exact M|apply ITs].
  - intros lo t v l s. rewrite const_terms_S. cbv zeta. destruct (is_add_constant _ _); [|mv].
    apply Moves_bind; [eapply Moves_trans; [|apply IT]; mv|]. intros s1 M. destruct (_ =? tINT_CONST); [|destruct (_ =? tBOOLEAN_CONST)]; mv;
      (eapply Moves_trans; [|apply ITs]); mv.
  - intros lo s. rewrite const_term_S. apply Moves_bind; [apply IF|]. intros s1 M. eapply Moves_trans; [exact M|apply IFs].
  - intros lo t v s. rewrite const_factors_S. cbv zeta. destruct (is_mul_constant _ _); [|mv].
    apply Moves_bind; [eapply Moves_trans; [|apply IF]; mv|]. intros s1 M. destruct (_ =? tSET_CONST); mv; (eapply Moves_trans; [|apply IFs]); mv.
  - intros lo s. rewrite const_factor_S. cbv zeta. destruct (existsb _ _); [mv|]. destruct (existsb _ _); [mv|].
    destruct (_ =? tLBRACKET); [apply constructor_moves|]. destruct (_ =? tNOT).
    { apply Moves_bind; [eapply Moves_trans; [|apply IF]; mv|]. intros. mv. }
    destruct (_ =? tSTDFUNC); [|mv]. apply function_moves. intros. apply IE.
Qed.

(** ** Enough fuel *)

Lemma bindk_nofuel r k : bindk r k = KNoFuel -> r = KNoFuel \/ exists s, r = KDone s /\ k s = KNoFuel.
Proof. destruct r; cbn; try discriminate; eauto. Qed.
Lemma bindi_nofuel o k : bindi o k = KNoFuel -> exists z, k z = KNoFuel.
Proof. destruct o; cbn; [eauto|discriminate]. Qed.
Lemma next_lt s : ktoken s <> 0 -> (klen (knext s) < klen s)%nat.
Proof. intros H. unfold klen. cbn. apply len_get_lt. exact H. Qed.

Lemma subset_fuel lo s : subset lo s <> KNoFuel.
Proof.
  unfold subset. cbv zeta. destruct (negb _); [discriminate|]. destruct (_ =? _).
  - destruct (negb _); [discriminate|]. destruct (add_range _ _ _ _); discriminate.
  - destruct (add_element _ _ _); discriminate.
Qed.
Lemma subsets_ends n : forall lo s, (klen s < n)%nat -> subsets n lo s <> KNoFuel.
Proof.
  induction n as [|n IH]; intros lo s L; [lia|]. cbn [subsets]. intros E. apply bindk_nofuel in E.
  destruct E as [E|(s1 & E1 & E)]; [exact (subset_fuel _ _ E)|]. apply (subset_moves lo s) in E1. destruct E1 as (M & _).
  destruct (Z.eqb_spec (ktoken s1) tCOMMA) as [K|K]; [|discriminate E]. apply (IH lo (knext s1)); [|exact E].
  assert (klen (knext s1) < klen s1)%nat by (apply next_lt; rewrite K; discriminate). lia.
Qed.

Definition enough (n : nat) : Prop :=
  (forall lo s, (4 * klen s + 4 <= n)%nat -> const_expression n lo s <> KNoFuel) /\
  (forall lo s, (4 * klen s + 3 <= n)%nat -> const_simple n lo s <> KNoFuel) /\
  (forall lo t v l s, (4 * klen s + 2 <= n)%nat -> const_terms n lo t v l s <> KNoFuel) /\
  (forall lo s, (4 * klen s + 2 <= n)%nat -> const_term n lo s <> KNoFuel) /\
  (forall lo t v s, (4 * klen s + 1 <= n)%nat -> const_factors n lo t v s <> KNoFuel) /\
  (forall lo s, (4 * klen s + 1 <= n)%nat -> const_factor n lo s <> KNoFuel).

Lemma klen_error_if b e s : klen (kerror_if b e s) = klen s.
Proof. destruct b; reflexivity. Qed.
Lemma op_not_eof o t : is_mul_constant o t = true \/ is_add_constant o t = true -> o <> 0.
Proof. intros H ->. destruct H; discriminate. Qed.

Lemma lparen_len s : ktoken s <> 0 -> (klen (check_lparen s) < klen s)%nat.
Proof.
  intros H. apply next_lt in H. unfold check_lparen. cbv zeta. destruct (_ =? _); [|exact H].
  destruct (moves_next (knext s)) as (M & _). lia.
Qed.
Lemma function_fuel n s : ktoken s <> 0 -> (4 * klen s <= n)%nat -> (forall s, (4 * klen s + 4 <= n)%nat -> const_expression n 0 s <> KNoFuel) ->
  constant_function n (const_expression n 0) s <> KNoFuel.
Proof.
  intros T L H E. apply lparen_len in T.
  assert (A : const_expression n 0 (check_lparen s) <> KNoFuel) by (apply H; lia).
  assert (M := proj1 (const_moves n) 0 (check_lparen s)).
  unfold constant_function in E. cbv zeta in E.
  repeat match type of E with
  | (if ?b then _ else _) = _ => destruct b
  | bindk (const_expression n 0 _) _ = _ => apply bindk_nofuel in E; destruct E as [E|(s1 & E1 & E)]; [exact (A E)|]
  | bindi _ _ = _ => apply bindi_nofuel in E; destruct E as (? & E)
  end; try discriminate E.
  apply M in E1. destruct E1 as (M1 & _). revert E. set (s2 := constant _ _ (kerror_if _ _ _)). intros E.
  destruct (expression n xAnyOrdinal (kc s2)) eqn:X; try discriminate E. revert X. apply expression_ends.
  assert (length (toks (kc s2)) = klen s1) by (unfold s2; cbn; rewrite <- (klen_error_if (negb (ordinal_constant (ktok s1))) eINVARG s1); reflexivity). lia.
Qed.

Lemma const_enough n : enough n.
Proof.
  induction n as [|n (IE & IS & ITs & IT & IFs & IF)]; [unfold enough; repeat match goal with |- _ /\ _ => split end; intros; lia|].
  assert (Mn := const_moves n). destruct Mn as (ME & MS & MTs & MT & MFs & MF). unfold enough.
  repeat match goal with |- _ /\ _ => split end.
  - intros lo s L E. rewrite const_expression_S in E. cbv zeta in E. apply bindk_nofuel in E. destruct E as [E|(s1 & E1 & E)]; [apply (IS lo s); [lia|exact E]|].
    apply MS in E1. destruct E1 as (M & _). destruct (_ || _); [|discriminate E]. apply bindk_nofuel in E. destruct E as [E|(s2 & _ & E)]; [apply (IS lo s1); [lia|exact E]|discriminate E].
  - intros lo s L E. rewrite const_simple_S in E. cbv zeta in E. set (s0 := if _ || _ then _ else _) in E.
    assert (M0 : (klen s0 <= klen s)%nat) by (unfold s0; destruct (_ || _); [apply moves_next|lia]).
    apply bindk_nofuel in E. destruct E as [E|(s1 & E1 & E)]; [apply (IT lo s0); [lia|exact E]|].
    apply MT in E1. destruct E1 as (M & _). destruct (_ && _); [discriminate E|]. apply bindi_nofuel in E. destruct E as (z & E). revert E. apply ITs. lia.
  - intros lo t v l s L E. rewrite const_terms_S in E. cbv zeta in E. destruct (is_add_constant _ _) eqn:A; [|discriminate E].
    assert (N : (klen (knext s) < klen s)%nat) by (apply next_lt; eapply op_not_eof; right; exact A).
    apply bindk_nofuel in E. destruct E as [E|(s1 & E1 & E)]; [apply (IT lo (knext s)); [lia|exact E]|]. apply MT in E1. destruct E1 as (M & _).
    assert (Q : klen (kerror_if (negb (t =? ktok s1)) eTERMTYPE s1) = klen s1) by apply klen_error_if.
    set (s2 := kerror_if _ _ _) in *. destruct (_ =? tINT_CONST); [apply bindi_nofuel in E; destruct E as (z & E)|destruct (_ =? tBOOLEAN_CONST)]; revert E; apply ITs; unfold klen in *; cbn; lia.
  - intros lo s L E. rewrite const_term_S in E. apply bindk_nofuel in E. destruct E as [E|(s1 & E1 & E)]; [apply (IF lo s); [lia|exact E]|].
    apply MF in E1. destruct E1 as (M & _). revert E. apply IFs. lia.
  - intros lo t v s L E. rewrite const_factors_S in E. cbv zeta in E. destruct (is_mul_constant _ _) eqn:A; [|discriminate E].
    assert (N : (klen (knext s) < klen s)%nat) by (apply next_lt; eapply op_not_eof; left; exact A).
    apply bindk_nofuel in E. destruct E as [E|(s1 & E1 & E)]; [apply (IF lo (knext s)); [lia|exact E]|]. apply MF in E1. destruct E1 as (M & _).
    assert (Q : klen (kerror_if (negb (t =? ktok s1)) eFACTORTYPE s1) = klen s1) by apply klen_error_if.
    set (s2 := kerror_if _ _ _) in *. destruct (_ =? tSET_CONST); [|apply bindi_nofuel in E; destruct E as (z & E)]; revert E; apply IFs; unfold klen in *; cbn; lia.
  - intros lo s L E. rewrite const_factor_S in E. cbv zeta in E. destruct (existsb _ _); [discriminate E|]. destruct (existsb _ _); [discriminate E|].
    destruct (Z.eqb_spec (ktoken s) tLBRACKET) as [K|_].
    { unfold set_constructor in E. cbv zeta in E. apply bindk_nofuel in E. destruct E as [E|(s1 & _ & E)]; [|discriminate E]. destruct (_ =? _); [discriminate E|].
      apply bindk_nofuel in E. destruct E as [E|(s1 & _ & E)]; [|discriminate E]. revert E. apply subsets_ends.
      assert (klen (knext s) < klen s)%nat by (apply next_lt; rewrite K; discriminate). unfold klen in *. cbn in *. lia. }
    destruct (Z.eqb_spec (ktoken s) tNOT) as [K|_].
    { assert (klen (knext s) < klen s)%nat by (apply next_lt; rewrite K; discriminate).
      apply bindk_nofuel in E. destruct E as [E|(s1 & _ & E)]; [|discriminate E]. revert E. apply IF. lia. }
    destruct (Z.eqb_spec (ktoken s) tSTDFUNC) as [K|_]; [|discriminate E].
    revert E. apply function_fuel; [rewrite K; discriminate|lia|]. intros. apply IE. assumption.
Qed.

Theorem const_ends n lo s : (4 * length (toks (kc s)) + 4 <= n)%nat -> const_expression n lo s <> KNoFuel.
Proof. apply const_enough. Qed.

(** ** The value, with this fuel *)

Theorem const_value ts e lo v : gcexpr ts e -> cval lo e = Some v -> cgood lo e = true ->
  forall s rest n, toks (kc s) = ts ++ rest -> ended rest -> (4 * length (toks (kc s)) + 4 <= n)%nat ->
  exists s', const_expression n lo s = KDone s' /\ only_tokens (kc s) (kc s') rest /\ result_is lo v s'.
Proof.
  intros G V Gd s rest n T En L. destruct constants_run as (_ & _ & _ & H).
  destruct (H ts e G lo v V Gd (kc s) rest (ktok s) (kint s) (kset s) En) as (t' & i' & l' & R & N & E).
  rewrite <- (st_self s (ts ++ rest) T) in E.
  exists (st_at (kc s) rest t' i' l'). split; [|split; [reflexivity|exact R]].
  specialize (E (max N n) (Nat.le_max_l _ _)). rewrite <- E. symmetry. apply const_fuel; [lia|]. apply const_ends. exact L.
Qed.
