(** The expression compiler always ends, and does not depend on the fuel. *)

From Coq Require Import ZArith Bool List Lia ZifyBool.
From Verif Require Import Words State Opcodes EncodeModel Machine ExprModel ExprSpec ExprOps ExprLoad ExprProofs ExprParse.
Import ListNotations.
Open Scope Z_scope.

(** ** More fuel does not change the result *)

Definition keeps (r r' : res) : Prop := r <> NoFuel -> r' = r.
Lemma keeps_refl r : keeps r r.
Proof. intros _. reflexivity. Qed.
Lemma keeps_bind r r' k k' : keeps r r' -> (forall t c, keeps (k t c) (k' t c)) -> keeps (bindr r k) (bindr r' k').
Proof.
  intros H K N. destruct r; cbn [bindr] in *; try (rewrite H by discriminate; reflexivity).
  - rewrite H by discriminate. cbn. apply K. exact N.
  - destruct N; reflexivity.
Qed.

Lemma factor_same n m f c : token c <> tLPAREN -> token c <> tNOT -> token c <> tTILDE -> token c <> sTYPE -> token c <> tSTDFUNC ->
  factor (S n) f c = factor (S m) f c.
Proof.
  intros N1 N2 N3 N4 N5. cbn [factor].
  replace (token c =? tLPAREN) with false by lia.
  replace ((token c =? tTILDE) || (token c =? tNOT)) with false by lia.
  replace (token c =? sTYPE) with false by lia.
  replace (token c =? tSTDFUNC) with false by lia. reflexivity.
Qed.

Lemma all_keep n :
  (forall f c, keeps (expression n f c) (expression (S n) f c)) /\
  (forall f c, keeps (simple_expression n f c) (simple_expression (S n) f c)) /\
  (forall f t c, keeps (terms n f t c) (terms (S n) f t c)) /\ (forall f c, keeps (term n f c) (term (S n) f c)) /\
  (forall f t c, keeps (factors n f t c) (factors (S n) f t c)) /\ (forall f c, keeps (factor n f c) (factor (S n) f c)).
Proof.
  induction n as [|n (IE & IS & ITs & IT & IFs & IF)].
  { repeat split; intros; intros N; destruct N; reflexivity. }
  repeat match goal with |- _ /\ _ => split end.
  - intros f c. rewrite (expression_S (S n)), (expression_S n). apply keeps_bind; [apply IS|]. intros t1 c1.
    destruct (token c1 =? tIN); [apply keeps_refl|]. destruct (relation (token c1)); [|apply keeps_refl].
    apply keeps_bind; [apply IS|]. intros. apply keeps_refl.
  - intros f c. rewrite (simple_S (S n)), (simple_S n). cbv zeta. apply keeps_bind; [apply IT|]. intros t1 c1. apply ITs.
  - intros f t c. rewrite (terms_S (S n)), (terms_S n). cbv zeta. destruct (is_addop (token c)); [|apply keeps_refl].
    destruct (_ && _); [apply keeps_refl|]. apply keeps_bind; [apply IT|]. intros. apply ITs.
  - intros f c. rewrite (term_S (S n)), (term_S n). apply keeps_bind; [apply IF|]. intros. apply IFs.
  - intros f t c. rewrite (factors_S (S n)), (factors_S n). cbv zeta. destruct (is_mulop (token c)); [|apply keeps_refl].
    destruct (is_shift (token c)); (apply keeps_bind; [apply IF|]); intros; apply IFs.
  - intros f c. apply (factor_cases c).
    + intros K. rewrite (factor_paren (S n)), (factor_paren n) by exact K. apply keeps_bind; [apply IE|]. intros. apply keeps_refl.
    + intros K. rewrite (factor_not (S n)), (factor_not n) by exact K. apply keeps_bind; [apply IF|]. intros. apply keeps_refl.
    + intros K. rewrite (factor_cast (S n)), (factor_cast n) by exact K. cbv zeta. destruct (negb _); [apply keeps_refl|].
      destruct (map_type _); [|apply keeps_refl]. apply keeps_bind; [apply IE|]. intros. apply keeps_refl.
    + intros K. rewrite (factor_std (S n)), (factor_std n) by exact K. cbv zeta. destruct (is_std _); [|apply keeps_refl].
      apply keeps_bind; [apply IE|]. intros. apply keeps_refl.
    + intros N1 N2 N3 N4 N5. rewrite (factor_same (S n) n) by assumption. apply keeps_refl.
Qed.

Theorem expression_fuel n m f c : (n <= m)%nat -> expression n f c <> NoFuel -> expression m f c = expression n f c.
Proof.
  intros L N. induction L as [|m L IH]; [reflexivity|].
  destruct (all_keep m) as (H & _). rewrite <- IH. apply H. rewrite IH. exact N.
Qed.

(** ** Tokens are only consumed *)

Definition len (c : comp) : nat := length (toks c).
Definition Eats (f : comp -> res) : Prop := forall c t c', f c = Done t c' -> (len c' <= len c)%nat.
Lemma len_get c : (len (getToken c) <= len c)%nat.
Proof. unfold len, getToken. cbn. destruct (toks c); cbn; lia. Qed.
Lemma len_get_lt c : token c <> 0 -> (len (getToken c) < len c)%nat.
Proof. intros H. destruct (at_token c H) as (t & r & T & _ & _ & G & _). unfold len. rewrite T, G. cbn. lia. Qed.
Lemma len_local a b : local a b -> len b = len a.
Proof. intros (_ & H). unfold len. rewrite H. reflexivity. Qed.

Lemma all_eat n : (forall f, Eats (expression n f)) /\ (forall f, Eats (simple_expression n f)) /\
  (forall f t, Eats (terms n f t)) /\ (forall f, Eats (term n f)) /\ (forall f t, Eats (factors n f t)) /\
  (forall f, Eats (factor n f)).
Proof.
  induction n as [|n (IE & IS & ITs & IT & IFs & IF)]; [repeat split; intros; intros c t' c' H; discriminate H|].
  repeat match goal with |- _ /\ _ => split end.
  - intros f c t c' H. rewrite expression_S in H. inv_done H. apply IS in E.
    destruct (token c0 =? tIN); [discriminate|]. destruct (relation (token c0)) as [r|].
    + inv_done H. apply IS in E0. pose proof (len_get c0).
      destruct (compare r t0 t1 c1) as [t2 c2] eqn:K. apply done_inv in H. destruct H as (-> & ->).
      rewrite (len_local _ _ (local_check f t2 c2)).
      replace c2 with (snd (compare r t0 t1 c1)) by (rewrite K; reflexivity). rewrite (len_local _ _ (local_compare r t0 t1 c1)). lia.
    + apply done_inv in H. destruct H as (-> & ->). rewrite (len_local _ _ (local_check f t0 c0)). exact E.
  - intros f c t c' H. rewrite simple_S in H. cbv zeta in H. inv_done H. apply IT in E. apply ITs in H.
    assert (len (if token c =? tMINUS then negate t0 c0 else c0) = len c0).
    { destruct (token c =? tMINUS); [apply (len_local _ _ (local_negate t0 c0))|reflexivity]. }
    assert (len (if ((token c =? tPLUS) || (token c =? tMINUS))%Z then getToken c else c) <= len c)%nat.
    { destruct (_ || _); [apply len_get|lia]. }
    lia.
  - intros f t1 c t c' H. rewrite terms_S in H. cbv zeta in H. destruct (is_addop (token c)).
    + destruct (_ && _); [discriminate|]. inv_done H. apply IT in E. apply ITs in H.
      rewrite (len_local _ _ (local_add _ _ _)), (len_local _ _ (local_error_if _ _ _)) in H. pose proof (len_get c). lia.
    + apply done_inv in H. destruct H as (-> & ->). lia.
  - intros f c t c' H. rewrite term_S in H. inv_done H. apply IF in E. apply IFs in H. lia.
  - intros f t1 c t c' H. rewrite factors_S in H. cbv zeta in H. pose proof (len_get c).
    destruct (is_mulop (token c)); [|apply done_inv in H; destruct H as (-> & ->); lia].
    destruct (is_shift (token c)); inv_done H; apply IF in E; apply IFs in H; rewrite (len_local _ _ (local_mul _ _ _)) in H;
      rewrite ?(len_local _ _ (local_error_if _ _ _)) in H; lia.
  - intros f c t c' H. pose proof (len_get c) as G. apply (factor_cases c).
    + intros K. rewrite factor_paren in H by exact K. inv_done H. apply IE in E.
      destruct (token c0 =? tRPAREN); apply done_inv in H; destruct H as (-> & ->).
      * pose proof (len_get c0). lia.
      * rewrite (len_local _ _ (local_error eRPAREN c0)). lia.
    + intros K. rewrite factor_not in H by exact K. inv_done H. apply IF in E.
      cbv zeta in H. apply done_inv in H. destruct H as (-> & ->).
      assert (L : local c0 (let c1 := error_if (negb (among t0 int16s || among t0 longs || teq t0 xBoolean)) eFACTORTYPE c0 in
         if among t0 longs then long_op 69 c1 else simple_op oNOT c1)).
      { cbv zeta. apply (local_trans _ (error_if (negb (among t0 int16s || among t0 longs || teq t0 xBoolean)) eFACTORTYPE c0)); [apply local_error_if|].
        unfold long_op, simple_op. destruct (among t0 longs); auto with local. }
      apply len_local in L. cbv zeta in L. rewrite L. lia.
    + intros K. rewrite factor_cast in H by exact K. cbv zeta in H. destruct (negb _).
      * apply done_inv in H. destruct H as (-> & ->). rewrite (len_local _ _ (local_error _ _)). exact G.
      * destruct (map_type _); [|discriminate]. inv_done H. apply IE in E. pose proof (len_get (getToken c)).
        set (d := if token c0 =? tRPAREN then _ else _) in H.
        assert (len d <= len c0)%nat.
        { unfold d. destruct (token c0 =? tRPAREN); [apply len_get|]. rewrite (len_local _ _ (local_error eRPAREN c0)). lia. }
        destruct (teq t0 xUnknown); apply done_inv in H; destruct H as (-> & ->); [lia|]. rewrite (len_local _ _ (local_convert _ _ _)). lia.
    + intros K. rewrite factor_std in H by exact K. cbv zeta in H. destruct (is_std _); [|discriminate]. inv_done H.
      apply IE in E. apply done_inv in H. destruct H as (-> & ->).
      assert (D : (len (if (token (getToken c) =? tLPAREN)%Z then getToken (getToken c) else error eLPAREN (getToken c)) <= len (getToken c))%nat).
      { destruct (_ =? _)%Z; [apply len_get|]. rewrite (len_local _ _ (local_error _ _)). lia. }
      pose proof (len_local _ _ (local_std (tsub (cur c)) t0 c0)) as D2.
      destruct (_ =? tRPAREN)%Z; [pose proof (len_get (std_code (tsub (cur c)) t0 c0))|rewrite (len_local _ _ (local_error _ _))]; lia.
    + intros N1 N2 N3 N4 N5. destruct (factor_fixed _ _ _ _ _ H N1 N2 N3 N4 N5) as (d & D & [-> | ->]); apply len_local in D; [lia|].
      pose proof (len_get d). lia.
Qed.

(** ** Enough fuel *)

Lemma bind_fuel r k : r <> NoFuel -> (forall t c, r = Done t c -> k t c <> NoFuel) -> bindr r k <> NoFuel.
Proof. destruct r; cbn; auto; discriminate. Qed.
Lemma done_fuel t c : Done t c <> NoFuel.
Proof. discriminate. Qed.

Lemma all_end n :
  (forall f c, (4 * len c + 4 <= n)%nat -> expression n f c <> NoFuel) /\
  (forall f c, (4 * len c + 3 <= n)%nat -> simple_expression n f c <> NoFuel) /\
  (forall f t c, (4 * len c + 1 <= n)%nat -> terms n f t c <> NoFuel) /\
  (forall f c, (4 * len c + 2 <= n)%nat -> term n f c <> NoFuel) /\
  (forall f t c, (4 * len c + 1 <= n)%nat -> factors n f t c <> NoFuel) /\
  (forall f c, (4 * len c + 1 <= n)%nat -> factor n f c <> NoFuel).
Proof.
  induction n as [|n (IE & IS & ITs & IT & IFs & IF)]; [repeat split; intros; lia|].
  destruct (all_eat n) as (EE & ES & ETs & ET & EFs & EF).
  repeat match goal with |- _ /\ _ => split end.
  - intros f c L. rewrite expression_S. apply bind_fuel; [apply IS; lia|]. intros t1 c1 R. apply ES in R.
    destruct (token c1 =? tIN); [discriminate|]. destruct (relation (token c1)); [|discriminate].
    apply bind_fuel; [apply IS; pose proof (len_get c1); lia|]. intros t2 c2 _. destruct (compare _ _ _ _). discriminate.
  - intros f c L. rewrite simple_S. cbv zeta.
    assert (G : (len (if ((token c =? tPLUS) || (token c =? tMINUS))%Z then getToken c else c) <= len c)%nat).
    { destruct (_ || _); [apply len_get|lia]. }
    apply bind_fuel; [apply IT; lia|]. intros t1 c1 R. apply ET in R. apply ITs.
    assert (len (if token c =? tMINUS then negate t1 c1 else c1) = len c1).
    { destruct (token c =? tMINUS); [apply (len_local _ _ (local_negate t1 c1))|reflexivity]. }
    lia.
  - intros f t c L. rewrite terms_S. cbv zeta. destruct (is_addop (token c)) eqn:A; [|discriminate].
    destruct (_ && _); [discriminate|].
    assert (G : (len (getToken c) < len c)%nat) by (apply len_get_lt; intros Z0; rewrite Z0 in A; discriminate A).
    apply bind_fuel; [apply IT; lia|]. intros t2 c2 R. apply ET in R. apply ITs.
    rewrite (len_local _ _ (local_add _ _ _)), (len_local _ _ (local_error_if _ _ _)). lia.
  - intros f c L. rewrite term_S. apply bind_fuel; [apply IF; lia|]. intros t1 c1 R. apply EF in R. apply IFs. lia.
  - intros f t c L. rewrite factors_S. cbv zeta. destruct (is_mulop (token c)) eqn:A; [|discriminate].
    assert (G : (len (getToken c) < len c)%nat) by (apply len_get_lt; intros Z0; rewrite Z0 in A; discriminate A).
    destruct (is_shift (token c)); (apply bind_fuel; [apply IF; lia|]); intros t2 c2 R; apply EF in R; apply IFs;
      rewrite (len_local _ _ (local_mul _ _ _)), ?(len_local _ _ (local_error_if _ _ _)); lia.
  - intros f c L. apply (factor_cases c).
    + intros K. rewrite factor_paren by exact K.
      assert (G : (len (getToken c) < len c)%nat) by (apply len_get_lt; rewrite K; discriminate).
      apply bind_fuel; [apply IE; lia|]. intros t1 c1 _. destruct (token c1 =? tRPAREN); discriminate.
    + intros K. rewrite factor_not by exact K.
      assert (G : (len (getToken c) < len c)%nat) by (apply len_get_lt; destruct K as [K|K]; rewrite K; discriminate).
      apply bind_fuel; [apply IF; lia|]. intros t1 c1 _. apply done_fuel.
    + intros K. rewrite factor_cast by exact K. cbv zeta. destruct (negb _); [discriminate|]. destruct (map_type _); [|discriminate].
      assert (G : (len (getToken c) < len c)%nat) by (apply len_get_lt; rewrite K; discriminate).
      pose proof (len_get (getToken c)).
      apply bind_fuel; [apply IE; lia|]. intros t1 c1 _. destruct (teq t1 xUnknown); apply done_fuel.
    + intros K. rewrite factor_std by exact K. cbv zeta. destruct (is_std _); [|discriminate].
      assert (G : (len (getToken c) < len c)%nat) by (apply len_get_lt; rewrite K; discriminate).
      assert (D : (len (if (token (getToken c) =? tLPAREN)%Z then getToken (getToken c) else error eLPAREN (getToken c)) <= len (getToken c))%nat).
      { destruct (_ =? _)%Z; [apply len_get|]. rewrite (len_local _ _ (local_error _ _)). lia. }
      apply bind_fuel; [apply IE; lia|]. intros t1 c1 _. apply done_fuel.
    + intros N1 N2 N3 N4 N5. cbn [factor].
      replace (token c =? tLPAREN) with false by lia.
      replace ((token c =? tTILDE) || (token c =? tNOT)) with false by lia.
      replace (token c =? sTYPE) with false by lia.
      replace (token c =? tSTDFUNC) with false by lia.
      repeat match goal with |- (if ?b then _ else _) <> _ => destruct b; try discriminate end.
      destruct (int_const _ _ _). discriminate.
Qed.

Theorem expression_ends n f c : (4 * length (toks c) + 4 <= n)%nat -> expression n f c <> NoFuel.
Proof. apply (all_end n). Qed.

(** ** Where it stops *)

Lemma factors_stop n : forall f t1 c t c', factors n f t1 c = Done t c' -> is_mulop (token c') = false.
Proof.
  induction n as [|n IH]; intros f t1 c t c' H; [discriminate H|]. rewrite factors_S in H. cbv zeta in H.
  destruct (is_mulop (token c)) eqn:A; [|apply done_inv in H; destruct H as (-> & ->); exact A].
  destruct (is_shift (token c)); inv_done H; apply IH in H; exact H.
Qed.
Lemma term_stop n f c t c' : term n f c = Done t c' -> is_mulop (token c') = false.
Proof. destruct n; [discriminate|]. rewrite term_S. intros H. inv_done H. apply factors_stop in H. exact H. Qed.
Lemma token_local a b : local a b -> token b = token a.
Proof. intros (_ & H). unfold token, cur. rewrite H. reflexivity. Qed.
Lemma terms_stop n : forall f t1 c t c', is_mulop (token c) = false -> terms n f t1 c = Done t c' ->
  is_mulop (token c') = false /\ is_addop (token c') = false.
Proof.
  induction n as [|n IH]; intros f t1 c t c' M H; [discriminate H|]. rewrite terms_S in H. cbv zeta in H.
  destruct (is_addop (token c)) eqn:A; [|apply done_inv in H; destruct H as (-> & ->); auto].
  destruct (_ && _); [discriminate|]. inv_done H. apply IH in H; [exact H|].
  rewrite (token_local _ _ (local_add _ _ _)), (token_local _ _ (local_error_if _ _ _)). apply (term_stop _ _ _ _ _ E).
Qed.
Lemma simple_stop n f c t c' : simple_expression n f c = Done t c' -> is_mulop (token c') = false /\ is_addop (token c') = false.
Proof.
  destruct n; [discriminate|]. rewrite simple_S. cbv zeta. intros H. inv_done H. apply terms_stop in H; [exact H|].
  destruct (token c =? tMINUS); [rewrite (token_local _ _ (local_negate _ _))|]; apply (term_stop _ _ _ _ _ E).
Qed.
Theorem expression_stop n f c t c' : expression n f c = Done t c' -> is_mulop (token c') = false /\ is_addop (token c') = false.
Proof.
  destruct n; [discriminate|]. rewrite expression_S. intros H. inv_done H.
  destruct (token c0 =? tIN); [discriminate|]. destruct (relation (token c0)) as [r|].
  - inv_done H. destruct (compare r t0 t1 c1) as [t2 c2] eqn:K. apply done_inv in H. destruct H as (-> & ->).
    rewrite (token_local _ _ (local_check _ _ _)).
    replace c2 with (snd (compare r t0 t1 c1)) by (rewrite K; reflexivity). rewrite (token_local _ _ (local_compare r t0 t1 c1)).
    apply (simple_stop _ _ _ _ _ E0).
  - apply done_inv in H. destruct H as (-> & ->). rewrite (token_local _ _ (local_check _ _ _)). apply (simple_stop _ _ _ _ _ E).
Qed.
