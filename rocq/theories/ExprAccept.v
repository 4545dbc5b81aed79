(** What the expression compiler accepts is an expression of the grammar. *)

From Coq Require Import ZArith Bool List Lia ZifyBool.
From Verif Require Import Words State Opcodes EncodeModel Machine ExprModel ExprSpec ExprOps ExprLoad ExprFun ExprProofs ExprParse.
Import ListNotations.
Open Scope Z_scope.

Lemma std_clean f t c : is_std f = true -> class_of t <> None -> errs (std_code f t c) = errs c ->
  exists g, f = code_of g /\ lax_fun g t = Some (std_type f t) /\ class_of (std_type f t) <> None.
Proof.
  intros F C E. assert (X : exists g, f = code_of g).
  { unfold is_std in F. apply existsb_exists in F. destruct F as (y & I & Y). apply Z.eqb_eq in Y. subst y.
    destruct I as [I|[I|[I|[I|[I|[I|[I|[]]]]]]]]; subst f;
      [exists FnAbs|exists FnSqr|exists FnPred|exists FnSucc|exists FnOrd|exists FnOdd|exists FnChr]; reflexivity. }
  destruct X as (g & ->). exists g. split; [reflexivity|].
  destruct g; cbn [lax_fun].
  - destruct t; try (destruct (error_not_clean _ _ E)); split; [reflexivity|discriminate].
  - destruct t; try (destruct (error_not_clean _ _ E)); split; try reflexivity; discriminate.
  - split; [reflexivity|exact C].
  - split; [reflexivity|exact C].
  - split; [reflexivity|discriminate].
  - split; [reflexivity|discriminate].
  - split; [reflexivity|discriminate].
Qed.

(** The loops extend what precedes them. *)
Definition AccFactors (run : etype -> etype -> comp -> res) : Prop :=
  forall f t1 us x c t c', run f t1 c = Done t c' -> errs c' = errs c -> wfs c ->
    gterm us x -> tlax f x = Some t1 -> class_of t1 <> None ->
    exists ts y, toks c = ts ++ toks c' /\ gterm (us ++ ts) y /\ tlax f y = Some t /\ class_of t <> None.
Definition AccTerms (run : etype -> etype -> comp -> res) : Prop :=
  forall f t1 us x c t c', run (of_context f t1) t1 c = Done t c' -> errs c' = errs c -> wfs c ->
    gsimple us x -> slax f x = Some t1 -> class_of t1 <> None ->
    exists ts y, toks c = ts ++ toks c' /\ gsimple (us ++ ts) y /\ slax f y = Some t /\ class_of t <> None.

Lemma nonzero_of (k : Z) (P : Z -> bool) : P k = true -> P 0 = false -> k <> 0.
Proof. intros A B ->. congruence. Qed.

Lemma all_accept n :
  (forall f, Acc (expression n f) gexpr (elax f)) /\ (forall f, Acc (simple_expression n f) gsimple (slax f)) /\
  AccTerms (terms n) /\ (forall f, Acc (term n f) gterm (tlax f)) /\ AccFactors (factors n) /\
  (forall f, Acc (factor n f) gfactor (flax f)).
Proof.
  induction n as [|n (IE & IS & ITs & IT & IFs & IF)].
  { repeat split; try (intros f c t c' H; discriminate H); intros f t1 us x c t c' H; discriminate H. }
  destruct (all_grow n) as (GE & GS & GTs & GT & GFs & GF).
  repeat match goal with |- _ /\ _ => split end.
  - (* expression *)
    intros f c t c' H E W. rewrite expression_S in H. inv_done H. rename E0 into R1.
    destruct (token c0 =? tIN); [discriminate|]. destruct (relation (token c0)) as [r|] eqn:Re.
    + inv_done H. rename E0 into R2. destruct (compare r t0 t1 c1) as [t2 c2] eqn:K. apply done_inv in H. destruct H as (-> & ->).
      pose proof (GS f _ _ _ R1) as G1. pose proof (GS f _ _ _ R2) as G2.
      assert (L2 : local c1 c2) by (replace c2 with (snd (compare r t0 t1 c1)) by (rewrite K; reflexivity); apply local_compare).
      pose proof (local_check f t2 c2) as L3.
      destruct (grows_clean c c0 _ G1 (grows_trans _ _ _ (grows_get c0) (grows_trans _ _ _ G2 (grows_trans _ _ _ (local_grows _ _ L2) (local_grows _ _ L3)))) E) as (E1 & E').
      destruct (grows_clean c0 c1 _ (grows_trans _ _ _ (grows_get c0) G2) (grows_trans _ _ _ (local_grows _ _ L2) (local_grows _ _ L3)) E') as (E2 & E'').
      destruct (grows_clean c1 c2 _ (local_grows _ _ L2) (local_grows _ _ L3) E'') as (E3 & E4).
      destruct (IS f _ _ _ R1 E1 W) as (ts & s1 & T1 & D1 & Y1 & C1).
      pose proof (wfs_app _ _ _ W T1) as W1.
      assert (NZ : token c0 <> 0) by (intros Z0; rewrite Z0 in Re; discriminate Re).
      destruct (at_token c0 NZ) as (a & rest & T & Ka & _ & Tg & Eg).
      assert (Wg : wfs (getToken c0)) by (unfold wfs in *; rewrite T in W1; rewrite Tg; inversion W1; assumption).
      destruct (IS f _ _ _ R2 ltac:(congruence) Wg) as (us & s2 & T2 & D2 & Y2 & C2).
      destruct (relation_inv _ _ Re) as (o & Ko & ->).
      pose proof (compare_clean _ _ _ _ _ _ K E3 C1) as Y3. pose proof (lax_rel_class _ _ _ _ Y3 C1) as C3.
      exists (ts ++ a :: us), (ERel s1 o s2). repeat split; [| | |exact C3].
      * rewrite T1, T, <- app_assoc. cbn. rewrite (toks_local _ _ L3), (toks_local _ _ L2). congruence.
      * apply g_rel; [assumption| |assumption]. unfold spells_rel. rewrite <- Ka, Ko. destruct o; reflexivity.
      * cbn [elax]. rewrite Y1. cbn [bind]. rewrite Y2. cbn [bind]. rewrite Y3. cbn [bind]. rewrite (check_clean _ _ _ E4). reflexivity.
    + apply done_inv in H. destruct H as (-> & ->). pose proof (GS f _ _ _ R1) as G1.
      destruct (grows_clean c c0 _ G1 (local_grows _ _ (local_check f t0 c0)) E) as (E1 & E2).
      destruct (IS f _ _ _ R1 E1 W) as (ts & s1 & T1 & D1 & Y1 & C1).
      exists ts, (ESimple s1). repeat split; [| | |exact C1].
      * rewrite (toks_local _ _ (local_check f t0 c0)). exact T1.
      * apply g_simple. exact D1.
      * cbn [elax]. rewrite Y1. cbn [bind]. rewrite (check_clean _ _ _ E2). reflexivity.
  - (* simple expression *)
    intros f c t c' H E W. rewrite simple_S in H. cbv zeta in H. inv_done H. rename E0 into R1.
    assert (LN : local c0 (if token c =? tMINUS then negate t0 c0 else c0)) by (destruct (token c =? tMINUS); [apply local_negate|apply local_refl]).
    pose proof (GT f _ _ _ R1) as G1. pose proof (GTs _ _ _ _ _ H) as G2.
    set (c1 := if (token c =? tPLUS) || (token c =? tMINUS) then getToken c else c) in *.
    assert (E0 : errs c1 = errs c) by (unfold c1; destruct (_ || _); reflexivity).
    set (c2 := if token c =? tMINUS then negate t0 c0 else c0) in *.
    rewrite <- E0 in E. destruct (grows_clean _ _ _ G1 (grows_trans _ _ _ (local_grows _ _ LN) G2) E) as (E1 & E').
    destruct (grows_clean _ _ _ (local_grows _ _ LN) G2 E') as (E2 & E3).
    destruct (Bool.bool_dec ((token c =? tPLUS) || (token c =? tMINUS)) true) as [Sg|Sg].
    + assert (NZ : token c <> 0) by (intros Z0; rewrite Z0 in Sg; discriminate Sg).
      destruct (at_token c NZ) as (a & rest & T & Ka & _ & Tg & Eg).
      assert (C1e : c1 = getToken c) by (unfold c1; rewrite Sg; reflexivity).
      assert (Wg : wfs c1) by (rewrite C1e; unfold wfs in *; rewrite T in W; rewrite Tg; inversion W; assumption).
      destruct (IT f _ _ _ R1 E1 Wg) as (ts & x & T1 & D1 & Y1 & C1).
      pose proof (wfs_app _ _ _ Wg T1) as W2.
      assert (W3 : wfs c2) by (unfold wfs; rewrite (toks_local _ _ LN); exact W2).
      assert (X : exists y, gsimple (a :: ts) y /\ slax f y = Some t0).
      { destruct (Z.eqb_spec (token c) tMINUS) as [M|M].
        - exists (STerm true x). split; [apply g_minus; [congruence|exact D1]|]. cbn [slax]. rewrite Y1. cbn [bind].
          unfold c2 in E2. rewrite (negate_clean _ _ E2). reflexivity.
        - exists (STerm false x). split; [apply g_plus; [lia|exact D1]|]. cbn [slax]. rewrite Y1. reflexivity. }
      destruct X as (y & Gy & Ly).
      destruct (ITs f t0 _ _ _ _ _ ltac:(unfold of_context; rewrite same_teq; exact H) E3 W3 Gy Ly C1) as (us & z & T2 & D2 & Y2 & C2).
      exists ((a :: ts) ++ us), z. repeat split; try assumption.
      rewrite T. cbn. rewrite <- app_assoc, <- T2, (toks_local _ _ LN), <- T1, C1e, Tg. reflexivity.
    + apply Bool.not_true_is_false in Sg.
      assert (C1e : c1 = c) by (unfold c1; rewrite Sg; reflexivity). rewrite C1e in *.
      assert (C2e : c2 = c0) by (unfold c2; destruct (token c =? tMINUS); [rewrite orb_true_r in Sg; discriminate|reflexivity]). rewrite C2e in *.
      destruct (IT f _ _ _ R1 E1 W) as (ts & x & T1 & D1 & Y1 & C1).
      pose proof (wfs_app _ _ _ W T1) as W2.
      destruct (ITs f t0 ts (STerm false x) _ _ _ ltac:(unfold of_context; rewrite same_teq; exact H) E3 W2 (g_term _ _ D1)
        ltac:(cbn [slax]; rewrite Y1; reflexivity) C1) as (us & z & T2 & D2 & Y2 & C2).
      exists (ts ++ us), z. repeat split; try assumption. rewrite T1, T2, app_assoc. reflexivity.
  - (* terms *)
    intros f t1 us x c t c' H E W Gx Lx C1. rewrite terms_S in H. cbv zeta in H. destruct (is_addop (token c)) eqn:A.
    + destruct ((token c =? tPLUS) && teq t1 xChar) eqn:P; [discriminate|]. inv_done H. rename E0 into R1.
      pose proof (GT _ _ _ _ R1) as G1. pose proof (GTs _ _ _ _ _ H) as G2.
      set (c1 := error_if (negb (term_mix t1 t0)) eTERMTYPE c0) in *.
      pose proof (local_error_if (negb (term_mix t1 t0)) eTERMTYPE c0) as L1. fold c1 in L1.
      pose proof (local_add (token c) t1 c1) as L2.
      destruct (grows_clean _ _ _ (grows_trans _ _ _ (grows_get c) G1) (grows_trans _ _ _ (local_grows _ _ L1) (grows_trans _ _ _ (local_grows _ _ L2) G2)) E) as (E1 & E').
      destruct (grows_clean _ _ _ (local_grows _ _ L1) (grows_trans _ _ _ (local_grows _ _ L2) G2) E') as (E2 & E'').
      destruct (grows_clean _ _ _ (local_grows _ _ L2) G2 E'') as (E3 & E4).
      assert (NZ : token c <> 0) by (intros Z0; rewrite Z0 in A; discriminate A).
      destruct (at_token c NZ) as (a & rest & T & Ka & _ & Tg & Eg).
      assert (Wg : wfs (getToken c)) by (unfold wfs in *; rewrite T in W; rewrite Tg; inversion W; assumption).
      destruct (IT _ _ _ _ R1 E1 Wg) as (ts & y & T1 & D1 & Y1 & C2).
      apply error_if_clean in E2. apply negb_false_iff in E2.
      destruct (add_clean _ _ _ _ A E2 C1 P E3) as (o & So & Lo).
      assert (W2 : wfs (add_op (token c) t1 c1)).
      { unfold wfs. rewrite (toks_local _ _ L2), (toks_local _ _ L1). apply (wfs_app _ _ _ Wg T1). }
      destruct (ITs f t1 (us ++ a :: ts) (SBin x o y) _ _ _ H E4 W2 (g_add _ _ _ _ _ _ Gx (So _ (eq_sym Ka)) D1)
        ltac:(cbn [slax]; rewrite Lx; cbn [bind]; rewrite Y1; cbn [bind]; exact Lo) C1) as (vs & z & T2 & D2 & Y2 & C3).
      exists (a :: ts ++ vs), z. rewrite <- app_assoc in D2. repeat split; try assumption.
      rewrite T. cbn. rewrite <- app_assoc, <- T2, (toks_local _ _ L2), (toks_local _ _ L1), <- T1, Tg. reflexivity.
    + apply done_inv in H. destruct H as (-> & ->). exists [], x. rewrite app_nil_r. auto.
  - (* term *)
    intros f c t c' H E W. rewrite term_S in H. inv_done H. rename E0 into R1.
    destruct (grows_clean _ _ _ (GF _ _ _ _ R1) (GFs _ _ _ _ _ H) E) as (E1 & E2).
    destruct (IF _ _ _ _ R1 E1 W) as (ts & x & T1 & D1 & Y1 & C1).
    destruct (IFs f t0 ts (TFactor x) _ _ _ H E2 (wfs_app _ _ _ W T1) (g_factor _ _ D1) Y1 C1) as (us & y & T2 & D2 & Y2 & C2).
    exists (ts ++ us), y. repeat split; try assumption. rewrite T1, T2, app_assoc. reflexivity.
  - (* factors *)
    intros f t1 us x c t c' H E W Gx Lx C1. rewrite factors_S in H. cbv zeta in H. destruct (is_mulop (token c)) eqn:A.
    + set (g := if is_shift (token c) then xAnyOrdinal else f).
      assert (X : exists t2 c0 c1, factor n g (getToken c) = Done t2 c0 /\ local c0 c1 /\
         (errs c1 = errs c0 -> is_shift (token c) = true -> teq t1 t2 = true /\ among t2 [xLongInteger; xLongWord; xUnknown] = false) /\
         factors n f t1 (mul_op (token c) t1 c1) = Done t c').
      { unfold g. destruct (is_shift (token c)) eqn:Sh; inv_done H.
        - set (b := among t0 [xLongInteger; xLongWord; xUnknown]) in *.
          exists t0, c0. eexists. split; [exact E0|]. split; [|split; [|exact H]].
          + eapply local_trans; apply local_error_if.
          + intros Cl _. destruct (clean_split _ _ _ (local_error_if b eSHIFTTYPE c0) (local_error_if _ _ _) Cl) as (Q1 & Q2).
            apply error_if_clean in Q1. apply error_if_clean in Q2. fold b. rewrite Q1 in *. split; [|reflexivity].
            apply negb_false_iff in Q2. exact Q2.
        - exists t0, c0, c0. split; [exact E0|]. split; [apply local_refl|]. split; [discriminate|exact H]. }
      clear H. destruct X as (t2 & c0 & c1 & R1 & L1 & Sh & H).
      pose proof (GF _ _ _ _ R1) as G1. pose proof (GFs _ _ _ _ _ H) as G2. pose proof (local_mul (token c) t1 c1) as L2.
      destruct (grows_clean _ _ _ (grows_trans _ _ _ (grows_get c) G1) (grows_trans _ _ _ (local_grows _ _ L1) (grows_trans _ _ _ (local_grows _ _ L2) G2)) E) as (E1 & E').
      destruct (grows_clean _ _ _ (local_grows _ _ L1) (grows_trans _ _ _ (local_grows _ _ L2) G2) E') as (E2 & E'').
      destruct (grows_clean _ _ _ (local_grows _ _ L2) G2 E'') as (E3 & E4).
      assert (NZ : token c <> 0) by (intros Z0; rewrite Z0 in A; discriminate A).
      destruct (at_token c NZ) as (a & rest & T & Ka & _ & Tg & Eg).
      assert (Wg : wfs (getToken c)) by (unfold wfs in *; rewrite T in W; rewrite Tg; inversion W; assumption).
      destruct (IF _ _ _ _ R1 E1 Wg) as (ts & y & T1 & D1 & Y1 & C2).
      destruct (mul_clean _ _ _ _ A C1 (Sh E2) E3) as (o & So & Lo & Io).
      assert (W2 : wfs (mul_op (token c) t1 c1)).
      { unfold wfs. rewrite (toks_local _ _ L2), (toks_local _ _ L1). apply (wfs_app _ _ _ Wg T1). }
      assert (Lz : tlax f (TBin x o y) = Some t1).
      { cbn [tlax]. rewrite Lx. cbn [bind].
        replace (match o with Shl | Shr => xAnyOrdinal | _ => f end) with g by (unfold g; rewrite Io; destruct o; reflexivity).
        rewrite Y1. exact Lo. }
      destruct (IFs f t1 (us ++ a :: ts) (TBin x o y) _ _ _ H E4 W2 (g_mul _ _ _ _ _ _ Gx (So _ (eq_sym Ka)) D1) Lz C1) as (vs & z & T2 & D2 & Y2 & C3).
      exists (a :: ts ++ vs), z. rewrite <- app_assoc in D2. repeat split; try assumption.
      rewrite T. cbn. rewrite <- app_assoc, <- T2, (toks_local _ _ L2), (toks_local _ _ L1), <- T1, Tg. reflexivity.
    + apply done_inv in H. destruct H as (-> & ->). exists [], x. rewrite app_nil_r. auto.
  - (* factor *)
    intros f c t c' H E W. apply (factor_cases c).
    + intros K. rewrite factor_paren in H by exact K. inv_done H. rename E0 into R1. pose proof (GE _ _ _ _ R1) as G1.
      assert (NZ : token c <> 0) by (rewrite K; discriminate).
      destruct (at_token c NZ) as (a & rest & T & Ka & _ & Tg & Eg).
      assert (Wg : wfs (getToken c)) by (unfold wfs in *; rewrite T in W; rewrite Tg; inversion W; assumption).
      destruct (Z.eqb_spec (token c0) tRPAREN) as [Rp|Rp]; apply done_inv in H; destruct H as (-> & ->).
      * assert (E1 : errs c0 = errs (getToken c)) by exact E.
        destruct (IE _ _ _ _ R1 E1 Wg) as (ts & x & T1 & D1 & Y1 & C1).
        assert (NZ0 : token c0 <> 0) by (rewrite Rp; discriminate).
        destruct (at_token c0 NZ0) as (b & rest0 & T0 & Kb & _ & Tg0 & Eg0).
        exists (a :: ts ++ [b]), (FParen x). repeat split; [| |exact Y1|exact C1].
        -- rewrite T, Tg0. cbn. rewrite <- app_assoc. cbn. rewrite <- T0, <- T1, Tg. reflexivity.
        -- apply g_paren; [congruence|exact D1|congruence].
      * destruct (grows_clean (getToken c) c0 _ G1 (local_grows _ _ (local_error eRPAREN c0)) E) as (E1 & E2).
        destruct (error_not_clean _ _ E2).
    + intros K. rewrite factor_not in H by exact K. inv_done H. rename E0 into R1. pose proof (GF _ _ _ _ R1) as G1.
      assert (NZ : token c <> 0) by (destruct K as [K|K]; rewrite K; discriminate).
      destruct (at_token c NZ) as (a & rest & T & Ka & _ & Tg & Eg).
      assert (Wg : wfs (getToken c)) by (unfold wfs in *; rewrite T in W; rewrite Tg; inversion W; assumption).
      cbv zeta in H. apply done_inv in H. destruct H as (-> & ->).
      set (b := negb (among t0 int16s || among t0 longs || teq t0 xBoolean)) in *.
      set (c1 := error_if b eFACTORTYPE c0) in *.
      assert (L1 : local c0 c1) by apply local_error_if.
      assert (L2 : local c1 (if among t0 longs then long_op 69 c1 else simple_op oNOT c1)).
      { unfold long_op, simple_op. destruct (among t0 longs); auto with local. }
      set (c2 := if among t0 longs then long_op 69 c1 else simple_op oNOT c1) in *.
      destruct (grows_clean (getToken c) c0 c2 G1 (grows_trans _ _ _ (local_grows _ _ L1) (local_grows _ _ L2)) E) as (E1 & E').
      destruct (grows_clean _ _ _ (local_grows _ _ L1) (local_grows _ _ L2) E') as (E2 & E3).
      destruct (IF _ _ _ _ R1 E1 Wg) as (ts & x & T1 & D1 & Y1 & C1).
      apply error_if_clean in E2. exists (a :: ts), (FNot x). repeat split; [| | |exact C1].
      * rewrite T. cbn. rewrite (toks_local _ _ L2), (toks_local _ _ L1), <- T1, Tg. reflexivity.
      * apply g_not; [destruct K; [left|right]; congruence|exact D1].
      * cbn [flax]. rewrite Y1. cbn [bind]. destruct t0; try discriminate E2; reflexivity.
    + intros K. rewrite factor_cast in H by exact K. cbv zeta in H.
      assert (NZ : token c <> 0) by (rewrite K; discriminate).
      destruct (at_token c NZ) as (a & rest & T & Ka & Cu & Tg & Eg).
      assert (Wg : wfs (getToken c)) by (unfold wfs in *; rewrite T in W; rewrite Tg; inversion W; assumption).
      destruct (Z.eqb_spec (token (getToken c)) tLPAREN) as [Lp|Lp]; cbn [negb] in H.
      2: { apply done_inv in H. destruct H as (-> & ->). destruct (error_not_clean eLPAREN (getToken c) E). }
      destruct (map_type (tType (tsym (cur c)))) as [new|] eqn:Mt; [|discriminate]. inv_done H. rename E0 into R1.
      pose proof (GE _ _ _ _ R1) as G1.
      assert (NZ1 : token (getToken c) <> 0) by (rewrite Lp; discriminate).
      destruct (at_token _ NZ1) as (b & rest1 & T1 & Kb & _ & Tg1 & Eg1).
      assert (Wg1 : wfs (getToken (getToken c))).
      { unfold wfs in *; rewrite T1 in Wg; rewrite Tg1. inversion Wg; assumption. }
      set (d := if token c0 =? tRPAREN then getToken c0 else error eRPAREN c0) in *.
      assert (Ld : grows c0 d) by (unfold d; destruct (token c0 =? tRPAREN); [apply grows_get|apply local_grows, local_error]).
      assert (Gd : grows d c').
      { destruct (teq t0 xUnknown); apply done_inv in H; destruct H as (-> & ->); [apply grows_refl|apply local_grows, local_convert]. }
      destruct (grows_clean (getToken (getToken c)) c0 c' G1 (grows_trans _ _ _ Ld Gd) E) as (E1 & E').
      destruct (grows_clean _ _ _ Ld Gd E') as (E2 & E3).
      destruct (IE _ _ _ _ R1 E1 Wg1) as (ts & x & Tx & D1 & Y1 & C1).
      assert (Dr : token c0 = tRPAREN /\ d = getToken c0).
      { unfold d in *. destruct (Z.eqb_spec (token c0) tRPAREN); [auto|]. destruct (error_not_clean _ _ E2). }
      destruct Dr as (Rp & Dd).
      assert (NZ0 : token c0 <> 0) by (rewrite Rp; discriminate).
      destruct (at_token c0 NZ0) as (e & rest0 & T0 & Ke & _ & Tg0 & Eg0).
      replace (teq t0 xUnknown) with false in H by (destruct t0; try reflexivity; exfalso; apply C1; reflexivity).
      apply done_inv in H. destruct H as (-> & ->).
      assert (Cn : tType (tsym a) = kind_of new /\ ~ In new [xUnknown; xAnyOrdinal] /\ class_of new <> None).
      { rewrite Cu in Mt. revert Mt. generalize (tType (tsym a)). intros k Mt. unfold map_type in Mt.
        repeat match type of Mt with (if ?k =? ?v then _ else _) = _ => destruct (Z.eqb_spec k v); [subst k|] end;
          try discriminate Mt; apply some_eq in Mt; subst new; (split; [reflexivity|]; split; [intros [X|[X|[]]]; discriminate X|discriminate]). }
      destruct Cn as (Kn & Nn & Cn).
      exists (a :: b :: ts ++ [e]), (FCast new x). repeat split; [| | |exact Cn].
      * rewrite T, (toks_local _ _ (local_convert new t0 d)), Dd, Tg0. cbn. rewrite <- app_assoc. cbn.
        rewrite <- T0, <- Tx, Tg1, <- T1, Tg. reflexivity.
      * apply g_cast; try assumption; congruence.
      * cbn [flax]. rewrite Y1. reflexivity.
    + intros K. rewrite factor_std in H by exact K. cbv zeta in H.
      destruct (is_std (tsub (cur c))) eqn:Sd; [|discriminate].
      assert (NZ : token c <> 0) by (rewrite K; discriminate).
      destruct (at_token c NZ) as (a & rest & T & Ka & Cu & Tg & Eg).
      assert (Wg : wfs (getToken c)) by (unfold wfs in *; rewrite T in W; rewrite Tg; inversion W; assumption).
      rewrite Cu in *. set (h := if token (getToken c) =? tLPAREN then getToken (getToken c) else error eLPAREN (getToken c)) in *.
      assert (Gh : grows (getToken c) h) by (unfold h; destruct (_ =? tLPAREN); [apply grows_get|apply local_grows, local_error]).
      inv_done H. rename E0 into R1. pose proof (GE _ _ _ _ R1) as G1. apply done_inv in H. destruct H as (-> & ->).
      set (d := std_code (tsub a) t0 c0) in *.
      assert (Ld : local c0 d) by apply local_std.
      set (e := if token d =? tRPAREN then getToken d else error eRPAREN d) in *.
      assert (Ge : grows d e) by (unfold e; destruct (token d =? tRPAREN); [apply grows_get|apply local_grows, local_error]).
      destruct (grows_clean (getToken c) h e Gh (grows_trans _ _ _ G1 (grows_trans _ _ _ (local_grows _ _ Ld) Ge)) E) as (E1 & E').
      destruct (grows_clean h c0 e G1 (grows_trans _ _ _ (local_grows _ _ Ld) Ge) E') as (E2 & E'').
      destruct (grows_clean c0 d e (local_grows _ _ Ld) Ge E'') as (E3 & E4).
      assert (Hh : token (getToken c) = tLPAREN /\ h = getToken (getToken c)).
      { unfold h in *. destruct (Z.eqb_spec (token (getToken c)) tLPAREN); [auto|]. destruct (error_not_clean _ _ E1). }
      destruct Hh as (Lp & Hh).
      assert (NZ1 : token (getToken c) <> 0) by (rewrite Lp; discriminate).
      destruct (at_token _ NZ1) as (b & rest1 & T1 & Kb & _ & Tg1 & Eg1).
      assert (Wg1 : wfs h).
      { rewrite Hh. unfold wfs in *; rewrite T1 in Wg; rewrite Tg1. inversion Wg; assumption. }
      destruct (IE _ _ _ _ R1 E2 Wg1) as (ts & x & Tx & D1 & Y1 & C1).
      assert (De : token d = tRPAREN /\ e = getToken d).
      { unfold e in *. destruct (Z.eqb_spec (token d) tRPAREN); [auto|]. destruct (error_not_clean _ _ E4). }
      destruct De as (Rp & De).
      assert (NZ0 : token d <> 0) by (rewrite Rp; discriminate).
      destruct (at_token d NZ0) as (o & rest0 & T0 & Ko & _ & Tg0 & Eg0).
      destruct (std_clean _ _ _ Sd C1 E3) as (g & Gc & Lg & Cg).
      exists (a :: b :: ts ++ [o]), (FFun g x). repeat split; [| | |exact Cg].
      * rewrite T. cbn. rewrite <- app_assoc. cbn. rewrite De, Tg0, <- T0, (toks_local _ _ Ld), <- Tx, Hh, Tg1, <- T1, Tg. reflexivity.
      * apply g_fun; try assumption; try congruence. split; [congruence|]. rewrite Gc. destruct g; reflexivity.
      * cbn [flax]. rewrite <- std_ctx, <- Gc, Y1. exact Lg.
    + intros N1 N2 N3 N4 N5. apply (fixed_accepted _ _ _ _ _ H E W N1 N2 N3 N4 N5).
Qed.
