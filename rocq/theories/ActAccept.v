(** Argument lists: what is accepted, and that reading them comes to an end. *)

From Coq Require Import ZArith Bool List Lia ZifyBool.
From Verif Require Import Words State Opcodes Machine ExprModel ExprSpec ExprProofs ExprParse ExprAccept ExprTotal ExprCases
  StmtModel StmtSpec StmtAccept ArrModel ActModel ActSpec ActProofs.
From Verif Require DeclModel.
Import ListNotations.
Open Scope Z_scope.

Lemma expect_clean k e c : k <> 0 -> errs (expect k e c) = errs c ->
  exists a, tk a = k /\ toks c = a :: toks (expect k e c).
Proof.
  unfold expect. intros K H. destruct (token c =? k) eqn:E.
  - destruct (at_token c ltac:(lia)) as (a & rest & T & Ka & _ & Tg & _). exists a. split; [lia|]. rewrite T, Tg. reflexivity.
  - exfalso. cbn in H. assert (length (errs c ++ [e]) = length (errs c)) by (rewrite H; reflexivity). rewrite app_length in H0. cbn in H0. lia.
Qed.
Lemma error_dirty e c : errs (error e c) <> errs c.
Proof. intros H. assert (X : length (errs c ++ [e]) = length (errs c)) by (cbn in H; rewrite H; reflexivity). rewrite app_length in X. cbn in X. lia. Qed.
Lemma error_if_clean b e c : errs (error_if b e c) = errs c -> b = false.
Proof. destruct b; [|reflexivity]. intros H. destruct (error_dirty e c H). Qed.

Lemma map_kind_inv k t : map_type k = Some t -> k = kind_of t /\ class_of t <> None.
Proof.
  unfold map_type. intros H. repeat match type of H with (if ?b then _ else _) = _ => destruct b eqn:?; [injection H as <-; split; [cbn; lia|discriminate]|] end.
  discriminate H.
Qed.

(** ** Errors accumulate *)

Lemma pointer_grow n : Grow (pointer_factor n).
Proof.
  induction n as [|n IH]; intros c t c' H; cbn [pointer_factor] in H; [discriminate|].
  destruct (map_type (token c)) as [u|].
  - injection H as _ <-. eapply grows_trans; [apply local_grows, local_ref|apply grows_get].
  - destruct (existsb _ _); [discriminate|]. destruct (token c =? tLPAREN).
    + apply bindr_done in H. destruct H as (t1 & c1 & H1 & H2). injection H2 as _ <-. apply IH in H1.
      eapply grows_trans; [apply grows_get|]. eapply grows_trans; [exact H1|apply grows_expect].
    + injection H as _ <-. apply local_grows, local_error.
Qed.
Lemma var_grow n t : Grow (var_parameter n t).
Proof.
  intros c u c' H. unfold var_parameter in H. apply bindr_done in H. destruct H as (t1 & c1 & H1 & H2).
  injection H2 as _ <-. apply pointer_grow in H1. eapply grows_trans; [exact H1|apply local_grows, local_error_if].
Qed.
Lemma of_expr_done z r size c' : of_expr z r = LDone size c' -> size = z /\ exists t, r = Done t c'.
Proof. destruct r; cbn; try discriminate. intros H. injection H as <- <-. eauto. Qed.

Definition LGrow (r : lres) (c : comp) : Prop := forall size c', r = LDone size c' -> grows c c'.
Lemma actual_grow n f c : LGrow (actual n f c) c.
Proof.
  intros size c' H. unfold actual in H.
  destruct (map_type (fKind f)) as [t|].
  { apply of_expr_done in H. destruct H as (_ & u & H). apply (proj1 (all_grow n) t c u c' H). }
  destruct (fKind f =? sSUBRANGE).
  { apply of_expr_done in H. destruct H as (_ & u & H). apply (proj1 (all_grow n) _ c u c' H). }
  destruct (fKind f =? sVAR_PARM).
  - destruct (fType f) as [vt|].
    + destruct (if vt =? sSUBRANGE then Some xInteger else map_type vt) as [t|].
      * apply of_expr_done in H. destruct H as (_ & u & H). apply (var_grow _ _ _ _ _ H).
      * destruct (existsb _ _); [discriminate|]. injection H as _ <-. apply local_grows, local_error.
    + injection H as _ <-. apply local_grows, local_error.
  - destruct (existsb _ _); [discriminate|]. injection H as _ <-. apply local_grows, local_error.
Qed.
Lemma loop_grow n fs : forall size c, LGrow (actual_loop n fs size c) c.
Proof.
  induction fs as [|f fs IH]; intros size c z c' H; cbn [actual_loop] in H.
  - injection H as _ <-. apply grows_refl.
  - destruct (actual n f c) as [z1 c1| |] eqn:E; try discriminate H. apply actual_grow in E.
    eapply grows_trans; [exact E|]. apply IH in H. eapply grows_trans; [|exact H].
    destruct fs; [apply grows_refl|apply grows_expect].
Qed.

(** ** What is accepted *)

Lemma pointer_accepted n : forall c t c', pointer_factor n c = Done t c' -> errs c' = errs c -> wfs c ->
  exists ts x, toks c = ts ++ toks c' /\ lvar ts x /\ vty x = t.
Proof.
  induction n as [|n IH]; intros c t c' H E W; cbn [pointer_factor] in H; [discriminate|].
  destruct (map_type (token c)) as [u|] eqn:M.
  - injection H as <- <-. destruct (map_kind_inv _ _ M) as (K & Cl).
    assert (NZ : token c <> 0) by (rewrite K; destruct u; try discriminate; exfalso; apply Cl; reflexivity).
    destruct (at_token c NZ) as (a & rest & T & Ka & Cu & Tg & _).
    exists [a], (mkVar u (sLevel (tsym a)) (vOffset (tsym a))). split; [|split; [|reflexivity]].
    + pose proof (local_ref oLAS (tsym (cur c)) c) as (_ & L). unfold getToken. cbn [toks]. rewrite L, T. reflexivity.
    + apply lv_name. assert (Nu : ~ In u [xUnknown; xAnyOrdinal]) by (intros [<-|[<-|[]]]; apply Cl; reflexivity).
      split; [cbn; congruence|]. do 2 (split; [reflexivity|]). split; [|exact Nu]. cbn.
      unfold wfs in W. rewrite T in W. inversion W as [|? ? Wa]; subst. apply Wa; [exact Nu|congruence].
  - destruct (existsb _ _); [discriminate|]. destruct (token c =? tLPAREN) eqn:L.
    + apply bindr_done in H. destruct H as (t1 & c1 & H1 & H2). injection H2 as <- <-.
      destruct (at_token c) as (a & rest & T & Ka & _ & Tg & Eg); [intros Z0; rewrite Z0 in L; discriminate L|].
      rewrite <- Eg in E.
      destruct (grows_clean _ _ _ (pointer_grow _ _ _ _ H1) (grows_expect tRPAREN eRPAREN c1) E) as (E1 & E2).
      assert (Wg : wfs (getToken c)) by (unfold wfs in *; rewrite T in W; rewrite Tg; inversion W; assumption).
      destruct (IH _ _ _ H1 E1 Wg) as (ts & x & Ts & Lv & Vt).
      destruct (expect_clean tRPAREN eRPAREN c1 ltac:(discriminate) E2) as (b & Kb & Tb).
      exists (a :: ts ++ [b]), x. split; [|split; [|exact Vt]].
      * rewrite T, <- Tg, Ts, Tb at 1. cbn. rewrite <- app_assoc. reflexivity.
      * apply lv_paren; [lia|exact Lv|exact Kb].
    + injection H as <- <-. destruct (error_dirty _ _ E).
Qed.

Lemma asked_same t u : class_of t <> None -> asked t u = true -> u = t.
Proof. intros C H. destruct t, u; try reflexivity; try discriminate H; exfalso; apply C; reflexivity. Qed.
Lemma elax_same t e u : class_of t <> None -> elax t e = Some u -> u = t.
Proof.
  intros C H. destruct e; cbn [elax] in H.
  - destruct (slax t s); cbn [bind] in H; [|discriminate]. destruct (asked t e) eqn:A; [|discriminate]. injection H as <-. apply asked_same; assumption.
  - destruct (slax t s1); cbn [bind] in H; [|discriminate]. destruct (slax t s2); cbn [bind] in H; [|discriminate].
    destruct (lax_rel _ _ _); cbn [bind] in H; [|discriminate]. destruct (asked t _) eqn:A; [|discriminate]. injection H as <-. apply asked_same; assumption.
Qed.

Lemma actual_accepted n f p c size c' : described f p -> actual n f c = LDone size c' -> errs c' = errs c -> wfs c ->
  size = slot p /\ exists ts a, toks c = ts ++ toks c' /\ larg p ts a.
Proof.
  intros D H E W. unfold actual in H.
  assert (V : forall t z, class_of t <> None -> of_expr z (expression n t c) = LDone size c' -> z = slot (ByValue t) ->
    size = slot (ByValue t) /\ exists ts a, toks c = ts ++ toks c' /\ larg (ByValue t) ts a).
  { intros t z Cl X Ez. apply of_expr_done in X. destruct X as (-> & u & X). split; [exact Ez|].
    destruct (accepted_type _ _ _ _ _ X E W) as (ts & e & T & G & L). exists ts, (AExpr e). split; [exact T|].
    constructor; [exact G|]. rewrite L. f_equal. eapply elax_same; eauto. }
  destruct p as [t|t].
  - destruct D as (Cl & [K|(-> & K)]).
    + rewrite K, (map_kind t Cl) in H. apply (V _ _ Cl H). destruct t; try reflexivity; exfalso; apply Cl; reflexivity.
    + rewrite K in H. apply (V _ _ Cl H). reflexivity.
  - destruct D as (Cl & K & Ft). rewrite K in H. change (map_type 0x5a) with (@None etype) in H. cbn iota in H.
    change (0x5a =? sSUBRANGE) with false in H. change (0x5a =? sVAR_PARM) with true in H. cbn iota in H.
    assert (X : of_expr (DeclModel.INT_ALIGNUP 2) (var_parameter n t c) = LDone size c').
    { destruct Ft as [F|(-> & F)]; rewrite F in H; [|exact H].
      replace (if kind_of t =? sSUBRANGE then Some xInteger else map_type (kind_of t)) with (Some t) in H; [exact H|].
      rewrite (map_kind t Cl). destruct t; try reflexivity; exfalso; apply Cl; reflexivity. }
    apply of_expr_done in X. destruct X as (-> & u & X). split; [reflexivity|].
    unfold var_parameter in X. apply bindr_done in X. destruct X as (u1 & c1 & X1 & X2). injection X2 as <- <-.
    destruct (grows_clean _ _ _ (pointer_grow _ _ _ _ X1) (local_grows _ _ (local_error_if _ _ _)) E) as (E1 & E2).
    apply error_if_clean in E2. destruct (pointer_accepted _ _ _ _ X1 E1 W) as (ts & x & T & L & Vt).
    exists ts, (AVar x). rewrite E2. cbn [error_if]. split; [exact T|]. constructor; [exact L|].
    rewrite Vt. destruct u1, t; try reflexivity; discriminate E2.
Qed.

Lemma loop_accepted n : forall fs ps, Forall2 described fs ps -> ps <> [] -> forall c size0 size c',
  actual_loop n fs size0 c = LDone size c' -> errs c' = errs c -> wfs c ->
  size = size0 + slots ps /\ exists ts l, toks c = ts ++ toks c' /\ largs ps ts l.
Proof.
  induction 1 as [|f p fs ps D Ds IH]; intros NE c size0 size c' H E W; [destruct (NE eq_refl)|].
  cbn [actual_loop] in H. destruct (actual n f c) as [z1 c1| |] eqn:A; try discriminate H.
  assert (G1 : grows c c1) by (eapply actual_grow; eauto).
  assert (G2 : grows c1 c').
  { apply loop_grow in H. eapply grows_trans; [|exact H]. destruct fs; [apply grows_refl|apply grows_expect]. }
  destruct (grows_clean _ _ _ G1 G2 E) as (E1 & E2).
  destruct (actual_accepted _ _ _ _ _ _ D A E1 W) as (-> & ts & a & T & La). rewrite slots_cons.
  destruct Ds as [|f2 p2 fs ps D2 Ds].
  - cbn [actual_loop] in H. injection H as <- <-. split; [cbn; lia|]. exists ts, [a]. split; [exact T|constructor; exact La].
  - set (c2 := expect tCOMMA eCOMMA c1) in *.
    destruct (grows_clean _ _ _ (grows_expect tCOMMA eCOMMA c1) (loop_grow _ _ _ _ _ _ H) E2) as (E3 & E4).
    destruct (expect_clean tCOMMA eCOMMA c1 ltac:(discriminate) E3) as (b & Kb & Tb). fold c2 in Tb.
    assert (W1 : wfs c1) by (eapply wfs_app; eauto).
    assert (W2 : wfs c2) by (apply (wfs_app c1 [b] c2 W1); exact Tb).
    destruct (IH ltac:(discriminate) c2 _ _ _ H E4 W2) as (S2 & us & l & U & Ls).
    split; [lia|]. exists (ts ++ b :: us), (a :: l). split.
    + rewrite T, Tb, U, <- app_assoc. reflexivity.
    + constructor; assumption.
Qed.

Lemma list_accepted : forall n fs ps c size c', Forall2 described fs ps ->
  actual_list n fs c = LDone size c' -> errs c' = errs c -> Forall wf_tok (toks c) ->
  size = slots ps /\ exists ts l, toks c = ts ++ toks c' /\ llist ps ts l.
Proof.
  intros n fs ps c size c' D H E W. change (wfs c) in W. unfold actual_list in H.
  destruct (actual_loop n fs 0 _) as [z c1| |] eqn:L; try discriminate H. injection H as <- <-.
  destruct D as [|f p fs ps D Ds].
  - cbn [actual_loop] in L. injection L as <- <-. split; [reflexivity|]. destruct (token c =? tLPAREN) eqn:P.
    + destruct (at_token c) as (a & rest & T & Ka & _ & Tg & Eg); [intros Z0; rewrite Z0 in P; discriminate P|].
      rewrite <- Eg in E. destruct (expect_clean tRPAREN eRPAREN _ ltac:(discriminate) E) as (b & Kb & Tb).
      exists [a; b], []. split; [|apply ll_empty; [lia|exact Kb]]. rewrite T, <- Tg, Tb at 1. reflexivity.
    + exists [], []. split; [reflexivity|constructor].
  - set (c0 := if token c =? tLPAREN then getToken c else c) in *.
    assert (Eg : errs c0 = errs c) by (unfold c0; destruct (token c =? tLPAREN); reflexivity).
    pose proof (local_error_if (negb (token c =? tLPAREN)) eLPAREN c0) as L0.
    set (c0' := error_if (negb (token c =? tLPAREN)) eLPAREN c0) in *.
    assert (G1 : grows c1 (if token c =? tLPAREN then expect tRPAREN eRPAREN c1 else c1)) by (destruct (token c =? tLPAREN); [apply grows_expect|apply grows_refl]).
    rewrite <- Eg in E.
    destruct (grows_clean _ _ _ (local_grows _ _ L0) (grows_trans _ _ _ (loop_grow _ _ _ _ _ _ L) G1) E) as (E1 & E2).
    destruct (grows_clean _ _ _ (loop_grow _ _ _ _ _ _ L) G1 E2) as (E3 & E4).
    apply error_if_clean in E1. apply negb_false_iff in E1.
    assert (C0 : c0 = getToken c) by (unfold c0; rewrite E1; reflexivity). clearbody c0' c0. rewrite E1 in *.
    destruct (at_token c) as (a & rest & T & Ka & _ & Tg & _); [intros Z0; rewrite Z0 in E1; discriminate E1|].
    assert (W0 : wfs c0') by (unfold wfs in *; rewrite (proj2 L0), C0, Tg; rewrite T in W; inversion W; assumption).
    destruct (loop_accepted _ _ _ (Forall2_cons _ _ D Ds) ltac:(discriminate) _ _ _ _ L E3 W0) as (Sz & ts & l & Ts & Ls).
    destruct (expect_clean tRPAREN eRPAREN _ ltac:(discriminate) E4) as (b & Kb & Tb).
    split; [lia|]. exists (a :: ts ++ [b]), l. split; [|apply ll_args; [lia|exact Ls|exact Kb]].
    assert (T0 : rest = toks c0') by (rewrite (proj2 L0), C0, Tg; reflexivity).
    rewrite T, T0, Ts, Tb at 1. cbn. rewrite <- app_assoc. reflexivity.
Qed.

Lemma args_length ps ts l : llist ps ts l -> length l = length ps.
Proof.
  intros [|a b Ha Hb|a ps' us l' b Ha G Hb]; [reflexivity|reflexivity|].
  induction G; cbn [length]; congruence.
Qed.

(** ** It ends *)

Lemma len_expect k e c : (len (expect k e c) <= len c)%nat.
Proof. unfold expect. destruct (_ =? _); [apply len_get|reflexivity]. Qed.
Lemma pointer_ends n : forall c, (len c < n)%nat -> pointer_factor n c <> NoFuel.
Proof.
  induction n as [|n IH]; intros c L; [lia|]. cbn [pointer_factor].
  destruct (map_type (token c)); [discriminate|]. destruct (existsb _ _); [discriminate|].
  destruct (token c =? tLPAREN) eqn:P; [|discriminate].
  apply bind_fuel; [|discriminate]. apply IH.
  pose proof (len_get_lt c ltac:(intros Z0; rewrite Z0 in P; discriminate P)). lia.
Qed.
Lemma pointer_eats n : forall c t c', pointer_factor n c = Done t c' -> (len c' <= len c)%nat.
Proof.
  induction n as [|n IH]; intros c t c' H; cbn [pointer_factor] in H; [discriminate|].
  destruct (map_type (token c)) as [u|].
  - injection H as _ <-. eapply Nat.le_trans; [apply len_get|]. rewrite (len_local _ _ (local_ref oLAS (tsym (cur c)) c)). lia.
  - destruct (existsb _ _); [discriminate|]. destruct (token c =? tLPAREN).
    + apply bindr_done in H. destruct H as (t1 & c1 & H1 & H2). injection H2 as _ <-. apply IH in H1.
      pose proof (len_get c). pose proof (len_expect tRPAREN eRPAREN c1). lia.
    + injection H as _ <-. reflexivity.
Qed.

Lemma actual_eats n f c size c' : actual n f c = LDone size c' -> (len c' <= len c)%nat.
Proof.
  intros H. unfold actual in H.
  destruct (map_type (fKind f)) as [t|].
  { apply of_expr_done in H. destruct H as (_ & u & H). apply (proj1 (all_eat n) t c u c' H). }
  destruct (fKind f =? sSUBRANGE).
  { apply of_expr_done in H. destruct H as (_ & u & H). apply (proj1 (all_eat n) _ c u c' H). }
  destruct (fKind f =? sVAR_PARM).
  - destruct (fType f) as [vt|].
    + destruct (if vt =? sSUBRANGE then Some xInteger else map_type vt) as [t|].
      * apply of_expr_done in H. destruct H as (_ & u & H). unfold var_parameter in H. apply bindr_done in H.
        destruct H as (t1 & c1 & H1 & H2). injection H2 as _ <-. rewrite (len_local _ _ (local_error_if _ _ _)). eapply pointer_eats; eauto.
      * destruct (existsb _ _); [discriminate|]. injection H as _ <-. reflexivity.
    + injection H as _ <-. reflexivity.
  - destruct (existsb _ _); [discriminate|]. injection H as _ <-. reflexivity.
Qed.
Lemma of_expr_fuel z r : r <> NoFuel -> of_expr z r <> LNoFuel.
Proof. intros H E. destruct r; try discriminate E. apply H. reflexivity. Qed.
Lemma actual_ends n f c : (4 * len c + 4 <= n)%nat -> actual n f c <> LNoFuel.
Proof.
  intros L. unfold actual. destruct (map_type (fKind f)) as [t|]; [apply of_expr_fuel, expression_ends, L|].
  destruct (fKind f =? sSUBRANGE); [apply of_expr_fuel, expression_ends, L|].
  destruct (fKind f =? sVAR_PARM).
  - destruct (fType f) as [vt|]; [|discriminate].
    destruct (if vt =? sSUBRANGE then Some xInteger else map_type vt) as [t|].
    + apply of_expr_fuel. unfold var_parameter. apply bind_fuel; [apply pointer_ends; lia|discriminate].
    + destruct (existsb _ _); discriminate.
  - destruct (existsb _ _); discriminate.
Qed.
Lemma loop_ends n : forall fs size c, (4 * len c + 4 <= n)%nat -> actual_loop n fs size c <> LNoFuel.
Proof.
  induction fs as [|f fs IH]; intros size c L; cbn [actual_loop]; [discriminate|].
  pose proof (actual_ends n f c L) as A. destruct (actual n f c) as [z c1| |] eqn:E; [|destruct (A eq_refl)|discriminate].
  apply actual_eats in E. apply IH. destruct fs; [lia|]. pose proof (len_expect tCOMMA eCOMMA c1). lia.
Qed.
Lemma list_ends : forall n fs c, (4 * length (toks c) + 4 <= n)%nat -> actual_list n fs c <> LNoFuel.
Proof.
  intros n fs c L. change (length (toks c)) with (len c) in L. unfold actual_list.
  set (c0 := if token c =? tLPAREN then getToken c else c).
  assert (L0 : (len c0 <= len c)%nat) by (unfold c0; destruct (_ =? _); [apply len_get|lia]).
  set (c1 := match fs with [] => c0 | _ => error_if (negb (token c =? tLPAREN)) eLPAREN c0 end).
  assert (L1 : len c1 = len c0) by (unfold c1; destruct fs; [reflexivity|apply (len_local _ _ (local_error_if _ _ _))]).
  pose proof (loop_ends n fs 0 c1 ltac:(lia)) as H. destruct (actual_loop n fs 0 c1); [discriminate|destruct (H eq_refl)|discriminate].
Qed.
