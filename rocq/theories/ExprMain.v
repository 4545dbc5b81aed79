(** The induction over the grammar. *)

From Coq Require Import ZArith Bool List Lia ZifyBool.
From Verif Require Import Words WordLemmas State StateLemmas Opcodes EncodeModel SetModel LongModel Machine VmSpec
  LongSpec VmProofs MemProofs MultiProofs LongProofs ExprModel ExprSpec ExprRun ExprOps ExprLoad ExprFun ExprProofs.
Import ListNotations.
Open Scope Z_scope.

Lemma fold_length qs c : length (out (fold_left (fun c p => append p c) qs c)) = (length (out c) + length qs)%nat.
Proof. revert c. induction qs as [|q qs IH]; intros c; simpl; [lia|]. rewrite IH. simpl. rewrite app_length. simpl. lia. Qed.

Section Main.
  Variable lev : Z.

  Definition need {A} (ts : list A) : Z := 2 * Z.of_nat (length ts).
  Definition reach (xs : list var) : Prop := forall x, In x xs -> addressable lev x.

  (** [ps] computes what [v] says *)
  Definition codes (ps : list opType) (k : Z) (xs : list var) (T : etype) (v : (var -> Z) -> option Z) : Prop :=
    forall env z, v env = Some z -> inr T z = true /\ computes lev ps k xs env (words T z).

  Definition not_mul (r : list tok) : Prop := is_mulop (tk (hd eoftok r)) = false.

  Definition Pf (ts : list tok) (f : factor_) : Prop :=
    forall ctx T, ftype ctx f = Some T -> reach (fvars f) ->
    exists ps N,
      (forall c rest n, toks c = ts ++ rest -> g_level c = lev -> (N <= n)%nat ->
         factor n ctx c = Done T (after c rest ps)) /\
      codes ps (need ts) (fvars f) T (fun env => fvalue env ctx f).
  Definition Pt (ts : list tok) (t : term_) : Prop :=
    forall ctx T, ttype ctx t = Some T -> reach (tvars t) ->
    exists ps N d,
      (forall c rest n, toks c = ts ++ rest -> g_level c = lev -> (N <= n)%nat ->
         term (n + d) ctx c = factors n ctx T (after c rest ps)) /\
      codes ps (need ts) (tvars t) T (fun env => tvalue env ctx t).
  Definition Ps (ts : list tok) (s : simple_) : Prop :=
    forall ctx T, stype ctx s = Some T -> reach (svars s) ->
    exists ps N d,
      (forall c rest n, toks c = ts ++ rest -> not_mul rest -> g_level c = lev -> (N <= n)%nat ->
         simple_expression (n + d) ctx c = terms n (of_context ctx T) T (after c rest ps)) /\
      codes ps (need ts) (svars s) T (fun env => svalue env ctx s).
  Definition Pe (ts : list tok) (e : expr) : Prop :=
    forall ctx T, etype_of ctx e = Some T -> reach (evars e) ->
    exists ps N,
      (forall c rest n, toks c = ts ++ rest -> ended rest -> g_level c = lev -> (N <= n)%nat ->
         expression n ctx c = Done T (after c rest ps)) /\
      codes ps (need ts) (evars e) T (fun env => evalue env ctx e).

  Lemma need_app {A} (a b : list A) : need (a ++ b) = need a + need b.
  Proof. unfold need. rewrite app_length. lia. Qed.
  Lemma need_cons {A} (a : A) b : need (a :: b) = need b + 2.
  Proof. unfold need. cbn [length]. lia. Qed.
  Lemma need_nil {A} : need (@nil A) = 0.
  Proof. reflexivity. Qed.
  Lemma need_pos {A} (ts : list A) : (1 <= length ts)%nat -> 2 <= need ts.
  Proof. unfold need. lia. Qed.

  Lemma codes_weaken ps k k' xs T v : codes ps k xs T v -> k <= k' -> codes ps k' xs T v.
  Proof.
    intros H L env z V. destruct (H env z V) as (R & C). split; [exact R|].
    apply (computes_weaken lev env ps k k' xs xs); [exact C|exact L|apply incl_refl].
  Qed.

  (** Two operands and an instruction *)
  Lemma codes_binary ps qs p k1 k2 k xs ys A B T v w u :
    codes ps k1 xs A v -> codes qs k2 ys B w ->
    (forall env z, u env = Some z -> exists x y, v env = Some x /\ w env = Some y /\
       (inr A x = true -> inr B y = true ->
        inr T z = true /\ rewrites p 0 (words A x ++ words B y) (words T z))) ->
    k1 <= k -> k2 + 2 <= k -> 4 <= k ->
    codes (ps ++ qs ++ [p]) k (xs ++ ys) T u.
  Proof.
    intros H1 H2 H L1 L2 L3 env z U. destruct (H env z U) as (x & y & V & W & G).
    destruct (H1 env x V) as (R1 & C1). destruct (H2 env y W) as (R2 & C2).
    destruct (G R1 R2) as (R & O). split; [exact R|].
    pose proof (words_length A x). pose proof (words_length B y).
    rewrite app_assoc. apply (computes_op_all lev env (ps ++ qs) p k 0 k (xs ++ ys) (words A x ++ words B y)); auto.
    - apply (computes_seq lev env ps qs k1 k2); auto. lia.
    - lia.
    - rewrite app_length. lia.
  Qed.
  Lemma codes_unary ps p k j xs A T v u :
    codes ps k xs A v ->
    (forall env z, u env = Some z -> exists x, v env = Some x /\
       (inr A x = true -> inr T z = true /\ rewrites p j (words A x) (words T z))) ->
    2 + j <= k ->
    codes (ps ++ [p]) k xs T u.
  Proof.
    intros H1 H L env z U. destruct (H env z U) as (x & V & G).
    destruct (H1 env x V) as (R1 & C1). destruct (G R1) as (R & O). split; [exact R|].
    pose proof (words_length A x).
    apply (computes_op_all lev env ps p k j k xs (words A x)); auto; lia.
  Qed.
  Lemma codes_same ps k xs A T v u :
    codes ps k xs A v ->
    (forall env z, u env = Some z -> v env = Some z /\ (inr A z = true -> inr T z = true /\ words A z = words T z)) ->
    codes ps k xs T u.
  Proof.
    intros H1 H env z U. destruct (H env z U) as (V & G).
    destruct (H1 env z V) as (R1 & C1). destruct (G R1) as (R & E). split; [exact R|]. rewrite <- E. exact C1.
  Qed.

  Lemma not_continue rest x : ended rest -> In x [tMUL; tDIV; tFDIV; tMOD; tAND; tSHL; tSHR; tAMP; tPLUS; tMINUS; tOR; tXOR; tSYMDIFF;
             tBAR; tEQ; tNE; tLT; tLE; tGT; tGE; tIN] -> (tk (hd eoftok rest) =? x) = false.
  Proof. intros E I. apply Z.eqb_neq. intros <-. apply E. exact I. Qed.

  Lemma ended_mul rest : ended rest -> not_mul rest.
  Proof.
    intros E. unfold not_mul, is_mulop. cbn [existsb].
    rewrite !(not_continue rest _ E) by (cbn; tauto). reflexivity.
  Qed.
  Lemma ended_add rest : ended rest -> is_addop (tk (hd eoftok rest)) = false.
  Proof.
    intros E. unfold is_addop. cbn [existsb]. rewrite !(not_continue rest _ E) by (cbn; tauto). reflexivity.
  Qed.
  Lemma ended_rel rest : ended rest -> relation (tk (hd eoftok rest)) = None /\ (tk (hd eoftok rest) =? tIN) = false.
  Proof.
    intros E. unfold relation. rewrite !(not_continue rest _ E) by (cbn; tauto). auto.
  Qed.

  Lemma main_factor_paren a ts e b : tk a = tLPAREN -> Pe ts e -> (1 <= length ts)%nat -> tk b = tRPAREN -> Pf (a :: ts ++ [b]) (FParen e).
  Proof.
    intros Ha IH Ne Hb ctx T HT HR. destruct (IH xUnknown T HT HR) as (ps & N & E & C).
    exists ps, (S N). split.
    - intros c rest n Hc G Hn. destruct n as [|n]; [lia|].
      assert (Hc' : toks c = a :: (ts ++ b :: rest)) by (rewrite Hc; cbn; rewrite <- app_assoc; reflexivity).
      destruct (token_at _ _ _ Hc') as (K & _). rewrite factor_paren by congruence.
      rewrite (get_at _ _ _ Hc'). rewrite (E _ (b :: rest)).
      + cbn [bindr]. rewrite token_after. cbn [hd]. rewrite Hb. cbn. rewrite after_after. cbn [app]. reflexivity.
      + reflexivity.
      + unfold ended, continues. cbn [hd]. rewrite Hb. cbn. intros H. repeat (destruct H as [H|H]; [discriminate H|]). exact H.
      + exact G.
      + lia.
    - apply (codes_weaken _ _ (need (a :: ts ++ [b]))) in C; [exact C|]. rewrite need_cons, need_app, need_cons, need_nil. lia.
  Qed.

  Lemma main_factor_not a ts f : tk a = tNOT \/ tk a = tTILDE -> Pf ts f -> (1 <= length ts)%nat -> Pf (a :: ts) (FNot f).
  Proof.
    intros Ha IH Ne ctx T HT HR. cbn [ftype] in HT. apply bind_some in HT. destruct HT as (u & U & HT).
    apply if_some in HT. destruct HT as (K & <-).
    destruct (IH ctx u U HR) as (ps & N & E & C). destruct (not_sound u K) as (p & P1 & P2 & P3).
    exists (ps ++ [p]), (S N). split.
    - intros c rest n Hc G Hn. destruct n as [|n]; [lia|].
      destruct (token_at _ _ _ Hc) as (Kt & _). rewrite factor_not by (rewrite Kt; exact Ha).
      rewrite (get_at _ _ _ Hc). rewrite (E _ rest); [|reflexivity|exact G|lia]. cbn [bindr]. rewrite P1, P2.
      rewrite append_after. rewrite !after_after. reflexivity.
    - pose proof (need_pos ts Ne). apply (codes_unary ps p _ 0 _ u u (fun env => fvalue env ctx f)).
      + apply (codes_weaken _ _ _ _ _ _ C). rewrite need_cons. lia.
      + intros env z V. cbn [fvalue] in V. rewrite U in V. cbn [bind] in V. apply bind_some in V. destruct V as (x & X & V).
        exists x. split; [exact X|]. intros R. apply (P3 x z R V).
      + rewrite need_cons. lia.
  Qed.

  Lemma map_kind t : class_of t <> None -> map_type (kind_of t) = Some t.
  Proof. destruct t; intros H; try reflexivity; exfalso; apply H; reflexivity. Qed.

  Lemma main_factor_cast a t b ts e d : tk a = sTYPE -> tType (tsym a) = kind_of t -> tk b = tLPAREN ->
    Pe ts e -> (1 <= length ts)%nat -> tk d = tRPAREN -> Pf (a :: b :: ts ++ [d]) (FCast t e).
  Proof.
    intros Ha Hk Hb IH Ne Hd ctx T HT HR. cbn [ftype] in HT. apply bind_some in HT. destruct HT as (u & U & HT).
    destruct (is_logical t || is_logical u) eqn:Lg; [discriminate|].
    destruct (class_of t) as [ct|] eqn:Ct; [|discriminate]. injection HT as <-.
    assert (Nt : class_of t <> None) by congruence.
    pose proof (proj2 (proj2 (proj2 ftype_class)) e xUnknown u U) as Nu.
    destruct (IH xUnknown u U HR) as (ps & N & E & C).
    destruct (convert_sound t u Nt Nu Lg) as (qs & Q1 & Q2).
    assert (Qn : exists q, qs = q /\ (length q <= 1)%nat).
    { exists qs. split; [reflexivity|].
      clear - Q1. specialize (Q1 (mkComp [] [] [] 0 0 0 0 0)).
      assert (L : length (out (convert t u (mkComp [] [] [] 0 0 0 0 0))) = length qs).
      { rewrite Q1, fold_length. reflexivity. }
      rewrite <- L. unfold convert. destruct (among t longs && negb (among u longs)).
      - destruct (among u signed16s); cbn; lia.
      - destruct (negb (among t longs) && among u longs); cbn; lia. }
    destruct Qn as (q & -> & Ql).
    exists (ps ++ q), (S N). split.
    - intros c rest n Hc G Hn. destruct n as [|n]; [lia|].
      assert (Hc' : toks c = a :: b :: (ts ++ d :: rest)) by (rewrite Hc; cbn; rewrite <- app_assoc; reflexivity).
      destruct (token_at _ _ _ Hc') as (K & K2). rewrite factor_cast by congruence. cbv zeta. rewrite K2, Hk, (map_kind t Nt).
      rewrite (get_at _ _ _ Hc'). rewrite token_after. cbn [hd]. rewrite Hb. cbn [negb Z.eqb].
      change (tLPAREN =? tLPAREN) with true. cbn [negb]. rewrite get_after.
      rewrite (E _ (d :: rest)).
      + cbn [bindr]. rewrite token_after. cbn [hd]. rewrite Hd. change (tRPAREN =? tRPAREN) with true. cbv iota.
        replace (teq u xUnknown) with false by (destruct u; try reflexivity; exfalso; apply Nu; reflexivity).
        rewrite Q1. rewrite !after_after. cbn [app]. rewrite get_after. f_equal.
        destruct q as [|p [|p' q]]; [cbn; rewrite app_nil_r; reflexivity| |cbn in Ql; lia].
        cbn [fold_left]. rewrite append_after. reflexivity.
      + reflexivity.
      + unfold ended, continues. cbn [hd]. rewrite Hd. cbn. intros H. repeat (destruct H as [H|H]; [discriminate H|]). exact H.
      + exact G.
      + lia.
    - pose proof (need_pos ts Ne) as Np. intros env z V. cbn [fvalue] in V. apply bind_some in V. destruct V as (x & X & V).
      apply limit_some in V. destruct V as (-> & R). destruct (C env x X) as (Ru & Cx). split; [exact R|]. cbn [fvars].
      destruct (Q2 x Ru R) as [(-> & W)|(p & -> & W)].
      + rewrite app_nil_r, <- W. apply (computes_weaken lev env ps _ _ (evars e) (evars e) _ Cx); [|apply incl_refl].
        rewrite !need_cons, need_app. unfold need at 3. cbn [length]. lia.
      + apply (computes_op_all lev env ps p (need ts) 1 _ (evars e) (words u x)); auto.
        * rewrite !need_cons, need_app. unfold need at 3. cbn [length]. lia.
        * rewrite !need_cons, need_app. pose proof (words_length u x). unfold need at 2. cbn [length]. lia.
  Qed.

  Lemma appends_after qs : forall c r a, fold_left (fun c p => append p c) qs (after c r a) = after c r (a ++ qs).
  Proof.
    induction qs as [|q qs IH]; intros c r a; [cbn; rewrite app_nil_r; reflexivity|].
    cbn [fold_left]. rewrite append_after, IH, <- app_assoc. reflexivity.
  Qed.
  Lemma is_std_code g : is_std (code_of g) = true.
  Proof. destruct g; reflexivity. Qed.

  Lemma main_factor_fun a g b ts e d : spells_std a g -> tk b = tLPAREN ->
    Pe ts e -> (1 <= length ts)%nat -> tk d = tRPAREN -> Pf (a :: b :: ts ++ [d]) (FFun g e).
  Proof.
    intros (Ha & Hs) Hb IH Ne Hd ctx T HT HR. change (tsub a = code_of g) in Hs.
    cbn [ftype] in HT. apply bind_some in HT. destruct HT as (u & U & HT).
    destruct (IH _ u U HR) as (ps & N & E & C).
    destruct (std_sound g u T HT) as (qs & Q1 & Q2).
    exists (ps ++ qs), (S N). split.
    - intros c rest n Hc G Hn. destruct n as [|n]; [lia|].
      assert (Hc' : toks c = a :: b :: (ts ++ d :: rest)) by (rewrite Hc; cbn; rewrite <- app_assoc; reflexivity).
      destruct (token_at _ _ _ Hc') as (K & K2). rewrite factor_std by congruence. cbv zeta. rewrite K2, Hs, is_std_code, std_ctx.
      rewrite (get_at _ _ _ Hc'). rewrite token_after. cbn [hd]. rewrite Hb.
      change (tLPAREN =? tLPAREN) with true. cbv iota. rewrite get_after.
      rewrite (E _ (d :: rest)).
      + cbn [bindr]. rewrite Q1, appends_after, (std_result g u T HT), token_after. cbn [hd]. rewrite Hd.
        change (tRPAREN =? tRPAREN) with true. cbv iota. rewrite get_after, after_after. reflexivity.
      + reflexivity.
      + unfold ended, continues. cbn [hd]. rewrite Hd. cbn. intros H. repeat (destruct H as [H|H]; [discriminate H|]). exact H.
      + exact G.
      + lia.
    - pose proof (need_pos ts Ne) as Np. intros env z V. cbn [fvalue] in V. rewrite U in V. cbn [bind] in V.
      apply bind_some in V. destruct V as (x & X & V). destruct (C env x X) as (Ru & Cx).
      destruct (Q2 x z Ru V) as (R & W). split; [exact R|]. cbn [fvars].
      apply (computes_weaken lev env _ (need ts + 1) _ (evars e) (evars e)); [apply (W lev env _ _ _ Cx)| |apply incl_refl]; [lia|].
      rewrite !need_cons, need_app. unfold need at 3. cbn [length]. lia.
  Qed.

  Lemma main_term_mul ts t a o us f : Pt ts t -> spells_mul a o -> Pf us f -> (1 <= length ts)%nat -> (1 <= length us)%nat ->
    Pt (ts ++ a :: us) (TBin t o f).
  Proof.
    intros IH1 Ha IH2 Ne1 Ne2 ctx T HT HR. cbn [ttype] in HT.
    apply bind_some in HT. destruct HT as (A & TA & HT). apply bind_some in HT. destruct HT as (B & TB & HT).
    destruct (mul_sound o A B T HT) as (p & -> & P1 & P2).
    destruct (IH1 ctx A TA) as (ps & N1 & d & E1 & C1); [intros x Hx; apply HR; cbn [tvars]; apply in_or_app; auto|].
    destruct (IH2 _ B TB) as (qs & N2 & E2 & C2); [intros x Hx; apply HR; cbn [tvars]; apply in_or_app; auto|].
    assert (Im : is_mulop (tk a) = true).
    { destruct o; cbn [spells_mul] in Ha; try destruct Ha as [Ha|Ha]; rewrite Ha; reflexivity. }
    assert (Is : is_shift (tk a) = match o with Shl | Shr => true | _ => false end).
    { destruct o; cbn [spells_mul] in Ha; try destruct Ha as [Ha|Ha]; rewrite Ha; reflexivity. }
    exists (ps ++ qs ++ [p]), (Nat.max N1 N2), (S d). split.
    - intros c rest n Hc G Hn. replace (n + S d)%nat with (S n + d)%nat by lia.
      rewrite <- app_assoc in Hc. cbn [app] in Hc.
      rewrite (E1 c (a :: us ++ rest) (S n) Hc G ltac:(lia)). rewrite factors_S. cbv zeta. rewrite token_after. cbn [hd].
      rewrite Im, Is, get_after.
      assert (Fin : forall c', c' = after (after c (us ++ rest) ps) rest qs ->
         factors n ctx A (mul_op (tk a) A c') = factors n ctx A (after c rest (ps ++ qs ++ [p]))).
      { intros c' ->. rewrite (P1 a _ Ha), append_after, after_after. reflexivity. }
      destruct o; (rewrite (E2 _ rest); [|reflexivity|exact G|lia]); cbn [bindr]; try (apply Fin; reflexivity).
      + cbn [type_mul] in HT. apply if_some in HT. destruct HT as (HT & _). apply andb_prop in HT. destruct HT as (S1 & S2).
        rewrite same_teq in S1. apply teq_true in S1. subst B.
        replace (among A [xLongInteger; xLongWord; xUnknown]) with false by (destruct A; try discriminate S2; reflexivity).
        cbn [error_if]. replace (teq A A) with true by (symmetry; apply teq_true; reflexivity). cbn [negb error_if]. apply Fin; reflexivity.
      + cbn [type_mul] in HT. apply if_some in HT. destruct HT as (HT & _). apply andb_prop in HT. destruct HT as (S1 & S2).
        rewrite same_teq in S1. apply teq_true in S1. subst B.
        replace (among A [xLongInteger; xLongWord; xUnknown]) with false by (destruct A; try discriminate S2; reflexivity).
        cbn [error_if]. replace (teq A A) with true by (symmetry; apply teq_true; reflexivity). cbn [negb error_if]. apply Fin; reflexivity.
    - pose proof (need_pos ts Ne1). pose proof (need_pos us Ne2). cbn [tvars].
      eapply (codes_binary ps qs p (need ts) (need us)); [exact C1|exact C2| | | |]; try (rewrite need_app, need_cons; lia).
      intros env z V. cbn [tvalue] in V. rewrite TA in V. cbn [bind] in V.
      apply bind_some in V. destruct V as (x & X & V). apply bind_some in V. destruct V as (y & Y & V).
      exists x, y. split; [exact X|]. split; [exact Y|]. intros R1 R2. apply (P2 x y z R1 R2 V).
  Qed.

  Lemma mix_ok o A B T : type_add o A B = Some T -> term_mix A B = true /\ A <> xChar.
  Proof. destruct o, A; try discriminate; destruct B; try discriminate; intros _; split; try reflexivity; discriminate. Qed.

  Lemma main_simple_add ts s a o us t : Ps ts s -> spells_add a o -> Pt us t -> (1 <= length ts)%nat -> (1 <= length us)%nat ->
    Ps (ts ++ a :: us) (SBin s o t).
  Proof.
    intros IH1 Ha IH2 Ne1 Ne2 ctx T HT HR. cbn [stype] in HT.
    apply bind_some in HT. destruct HT as (A & TA & HT). apply bind_some in HT. destruct HT as (B & TB & HT).
    destruct (mix_ok _ _ _ _ HT) as (Mx & Nc). destruct (add_sound o A B T HT) as (p & -> & P1 & P2).
    destruct (IH1 ctx A TA) as (ps & N1 & d1 & E1 & C1); [intros x Hx; apply HR; cbn [svars]; apply in_or_app; auto|].
    destruct (IH2 _ B TB) as (qs & N2 & d2 & E2 & C2); [intros x Hx; apply HR; cbn [svars]; apply in_or_app; auto|].
    assert (Ia : is_addop (tk a) = true /\ not_mul (a :: us)).
    { unfold not_mul. cbn [hd]. destruct o; cbn [spells_add] in Ha; try destruct Ha as [Ha|Ha]; rewrite Ha; split; reflexivity. }
    destruct Ia as (Ia & Im).
    exists (ps ++ qs ++ [p]), (Nat.max N1 (N2 + d2 + 1)), (S d1). split.
    - intros c rest n Hc Nm G Hn. replace (n + S d1)%nat with (S n + d1)%nat by lia.
      rewrite <- app_assoc in Hc. cbn [app] in Hc.
      rewrite (E1 c (a :: us ++ rest) (S n) Hc Im G ltac:(lia)). rewrite terms_S. cbv zeta. rewrite token_after. cbn [hd].
      rewrite Ia, get_after. replace (teq A xChar) with false by (destruct A; try reflexivity; exfalso; apply Nc; reflexivity).
      rewrite andb_false_r.
      replace n with ((S (n - d2 - 1)) + d2)%nat at 1 by lia.
      rewrite (E2 _ rest (S (n - d2 - 1))); [|reflexivity|exact G|lia]. rewrite factors_S. cbv zeta. rewrite token_after, Nm.
      cbn [bindr]. rewrite Mx. cbn [negb error_if]. rewrite (P1 a _ Ha), append_after, after_after. reflexivity.
    - pose proof (need_pos ts Ne1). pose proof (need_pos us Ne2). cbn [svars].
      eapply (codes_binary ps qs p (need ts) (need us)); [exact C1|exact C2| | | |]; try (rewrite need_app, need_cons; lia).
      intros env z V. cbn [svalue] in V. rewrite TA in V. cbn [bind] in V.
      apply bind_some in V. destruct V as (x & X & V). apply bind_some in V. destruct V as (y & Y & V).
      exists x, y. split; [exact X|]. split; [exact Y|]. intros R1 R2. apply (P2 x y z R1 R2 V).
  Qed.

  (** A term, with or without a sign *)
  Lemma main_simple_term pre ts t minus : Pt ts t -> gterm ts t -> (1 <= length ts)%nat ->
    (pre = [] /\ minus = false) \/ (exists a, pre = [a] /\ tk a = if minus then tMINUS else tPLUS) ->
    Ps (pre ++ ts) (STerm minus t).
  Proof.
    intros IH Gt Ne Hp ctx T HT HR. cbn [stype] in HT. apply bind_some in HT. destruct HT as (A & TA & HT).
    destruct (IH ctx A TA HR) as (ps & N & d & E & C).
    assert (Hm : exists qs, T = A /\ (forall c r, (if minus then negate A (after c r ps) else after c r ps) = after c r (ps ++ qs)) /\
              codes (ps ++ qs) (need (pre ++ ts)) (tvars t) A (fun env => svalue env ctx (STerm minus t))).
    { pose proof (need_pos ts Ne) as Np. assert (L : need ts <= need (pre ++ ts)) by (rewrite need_app; unfold need; lia).
      destruct minus.
      - apply if_some in HT. destruct HT as (K & <-). destruct (negate_sound A K) as (p & P1 & P2).
        exists [p]. split; [reflexivity|]. split; [intros c r; rewrite P1, append_after; reflexivity|].
        apply (codes_unary ps p _ 0 _ A A (fun env => tvalue env ctx t)); [apply (codes_weaken _ _ _ _ _ _ C L)| |lia].
        intros env z V. cbn [svalue] in V. rewrite TA in V. cbn [bind] in V. apply bind_some in V. destruct V as (x & X & V).
        apply limit_some in V. destruct V as (-> & R). exists x. split; [exact X|]. intros R1. split; [exact R|apply (P2 x R1 R)].
      - injection HT as <-. exists []. rewrite app_nil_r. split; [reflexivity|]. split; [intros; reflexivity|].
        apply (codes_same ps _ _ A A (fun env => tvalue env ctx t)); [apply (codes_weaken _ _ _ _ _ _ C L)|].
        intros env z V. cbn [svalue] in V. rewrite TA in V. cbn [bind] in V. apply bind_some in V. destruct V as (x & X & V).
        injection V as <-. auto. }
    destruct Hm as (qs & -> & M & Cm). exists (ps ++ qs), (N + d + 1)%nat, 1%nat. split; [|exact Cm].
    intros c rest n Hc Nm G Hn. replace (n + 1)%nat with (S n) by lia. rewrite simple_S. cbv zeta.
    assert (Fin : forall c' r, toks c' = ts ++ rest -> g_level c' = lev -> after c' rest (ps ++ qs) = r ->
        bindr (term n ctx c') (fun t1 c0 => terms n (if teq ctx xUnknown then t1 else ctx) t1 (if minus then negate t1 c0 else c0)) =
        terms n (of_context ctx A) A r).
    { intros c' r H1 H2 <-. replace n with (S (n - d - 1) + d)%nat at 1 by lia.
      rewrite (E _ rest (S (n - d - 1)) H1 H2 ltac:(lia)). rewrite factors_S. cbv zeta. rewrite token_after, Nm. cbn [bindr].
      rewrite M. unfold of_context. rewrite same_teq. reflexivity. }
    destruct Hp as [(-> & ->)|(a & -> & Ka)].
    - cbn [app] in Hc. assert (K : token c = tk (hd eoftok (ts ++ rest))) by (unfold token, cur; rewrite Hc; reflexivity).
      destruct (term_first _ _ Gt rest) as (F1 & F2). rewrite <- K in F1, F2.
      replace (token c =? tPLUS) with false by lia. replace (token c =? tMINUS) with false by lia. cbn [orb].
      apply (Fin c); auto.
    - rewrite <- app_assoc in Hc. cbn [app] in Hc. destruct (token_at _ _ _ Hc) as (K & _).
      rewrite K, Ka. rewrite (get_at _ _ _ Hc).
      destruct minus.
      + change (tMINUS =? tPLUS) with false. change (tMINUS =? tMINUS) with true. cbn [orb].
        apply (Fin (after c (ts ++ rest) [])); [reflexivity|exact G|]. rewrite after_after. reflexivity.
      + change (tPLUS =? tPLUS) with true. change (tPLUS =? tMINUS) with false. cbn [orb].
        apply (Fin (after c (ts ++ rest) [])); [reflexivity|exact G|]. rewrite after_after. reflexivity.
  Qed.

  Lemma main_expr_simple ts s : Ps ts s -> Pe ts (ESimple s).
  Proof.
    intros IH ctx T HT HR. cbn [etype_of] in HT. apply bind_some in HT. destruct HT as (A & TA & HT).
    apply if_some in HT. destruct HT as (Ask & <-). destruct (IH ctx A TA HR) as (ps & N & d & E & C).
    exists ps, (N + d + 2)%nat. split; [|exact C].
    intros c rest n Hc En G Hn. destruct n as [|n]; [lia|]. rewrite expression_S.
    replace n with (S (n - d - 1) + d)%nat at 1 by lia.
    rewrite (E c rest (S (n - d - 1)) Hc (ended_mul _ En) G ltac:(lia)). rewrite terms_S. cbv zeta. rewrite token_after, (ended_add _ En).
    cbn [bindr]. rewrite token_after. destruct (ended_rel _ En) as (R1 & R2). rewrite R1, R2.
    rewrite check_ok; auto. apply (proj1 (proj2 (proj2 ftype_class)) s ctx A TA).
  Qed.

  Lemma main_expr_rel ts s1 a r us s2 : Ps ts s1 -> spells_rel a r -> Ps us s2 -> (1 <= length ts)%nat -> (1 <= length us)%nat ->
    Pe (ts ++ a :: us) (ERel s1 r s2).
  Proof.
    intros IH1 Ha IH2 Ne1 Ne2 ctx T HT HR. cbn [etype_of] in HT.
    apply bind_some in HT. destruct HT as (A & TA & HT). apply bind_some in HT. destruct HT as (B & TB & HT).
    apply bind_some in HT. destruct HT as (Tr & TR & HT). apply if_some in HT. destruct HT as (Ask & <-).
    destruct (compare_sound r A B Tr TR) as (-> & p & P1 & P2).
    destruct (IH1 ctx A TA) as (ps & N1 & d1 & E1 & C1); [intros x Hx; apply HR; cbn [evars]; apply in_or_app; auto|].
    destruct (IH2 ctx B TB) as (qs & N2 & d2 & E2 & C2); [intros x Hx; apply HR; cbn [evars]; apply in_or_app; auto|].
    assert (Ka : tk a = rel_token r) by (destruct r; exact Ha).
    assert (Ia : is_addop (tk a) = false /\ not_mul (a :: us) /\ (tk a =? tIN) = false)
      by (unfold not_mul; cbn [hd]; rewrite Ka; destruct r; repeat split; reflexivity).
    destruct Ia as (Ia & Im & Iin).
    exists (ps ++ qs ++ [p]), (N1 + d1 + N2 + d2 + 3)%nat. split.
    - intros c rest n Hc En G Hn. destruct n as [|n]; [lia|]. rewrite expression_S.
      rewrite <- app_assoc in Hc. cbn [app] in Hc.
      replace n with (S (n - d1 - 1) + d1)%nat at 1 by lia.
      rewrite (E1 c (a :: us ++ rest) (S (n - d1 - 1)) Hc Im G ltac:(lia)). rewrite terms_S. cbv zeta. rewrite token_after. cbn [hd]. rewrite Ia.
      cbn [bindr]. rewrite token_after. cbn [hd]. rewrite Iin, Ka, relation_token, get_after.
      replace n with (S (n - d2 - 1) + d2)%nat at 1 by lia.
      rewrite (E2 _ rest); [|reflexivity|apply (ended_mul _ En)|exact G|lia]. rewrite terms_S. cbv zeta. rewrite token_after, (ended_add _ En).
      cbn [bindr]. rewrite P1, append_after, after_after. rewrite check_ok; [reflexivity|discriminate|exact Ask].
    - pose proof (need_pos ts Ne1). pose proof (need_pos us Ne2). cbn [evars].
      eapply (codes_binary ps qs p (need ts) (need us)); [exact C1|exact C2| | | |]; try (rewrite need_app, need_cons; lia).
      intros env z V. cbn [evalue] in V. rewrite TA, TB in V. cbn [bind] in V.
      apply bind_some in V. destruct V as (x & X & V). apply bind_some in V. destruct V as (y & Y & V).
      exists x, y. split; [exact X|]. split; [exact Y|]. intros R1 R2. apply (P2 x y z V).
  Qed.

  Lemma main_factor_int t n : tk t = tINT_CONST -> tval t = n -> Pf [t] (FInt n).
  Proof.
    intros Ht Hn ctx T HT HR. cbn [ftype] in HT.
    destruct (int_const_sound ctx n T lev (fun _ => 0) HT) as (ps & E & R & _).
    exists ps, 1%nat. split.
    - intros c rest m Hc G Hm. destruct m as [|m]; [lia|]. cbn [app] in Hc. destruct (token_at _ _ _ Hc) as (K & U).
      rewrite factor_int by congruence. rewrite U, Hn, E. rewrite (get_code _ _ _ _ Hc). reflexivity.
    - intros env z V. cbn [fvalue] in V. injection V as <-. split; [exact R|].
      destruct (int_const_sound ctx n T lev env HT) as (ps' & E' & _ & C). replace ps with ps'; [exact C|].
      pose proof (E (mkComp [] [] [] 0 0 0 0 0)) as Q. rewrite E' in Q. unfold code in Q. cbn in Q. congruence.
  Qed.

  Lemma s32_small v : 0 <= v < 2147483648 -> s32 v = v.
  Proof. intros H. unfold s32, u32. rewrite Z.mod_small by lia. destruct (v <? 2147483648) eqn:E; lia. Qed.

  Lemma main_factor_bool t (b : bool) : tk t = tBOOLEAN_CONST -> tval t = (if b then 4294967295 else 0) -> Pf [t] (FBool b).
  Proof.
    intros Ht Hv ctx T HT HR. cbn [ftype] in HT. injection HT as <-. exists [lpush (if b then 65535 else 0)], 1%nat. split.
    - intros c rest m Hc G Hm. destruct m as [|m]; [lia|]. cbn [app] in Hc. destruct (token_at _ _ _ Hc) as (K & U).
      rewrite factor_bool by congruence. rewrite U, Hv.
      replace (s32 (if b then 4294967295 else 0)) with (if b then -1 else 0) by (destruct b; reflexivity).
      rewrite emit_push by (destruct b; lia). rewrite append_code, (get_code _ _ _ _ Hc). destruct b; reflexivity.
    - intros env z V. cbn [fvalue] in V. injection V as <-. split; [destruct b; reflexivity|].
      replace (words xBoolean (if b then -1 else 0)) with [if b then 65535 else 0] by (destruct b; reflexivity).
      apply computes_push; [destruct b; lia|unfold need; cbn; lia].
  Qed.

  Lemma main_factor_char t n : tk t = tCHAR_CONST -> tval t = n -> Pf [t] (FChar n).
  Proof.
    intros Ht Hv ctx T HT HR. cbn [ftype] in HT. apply if_some in HT. destruct HT as (R & <-).
    pose proof (inr_cases _ _ R) as B. cbn [class_of] in B.
    exists [lpush n], 1%nat. split.
    - intros c rest m Hc G Hm. destruct m as [|m]; [lia|]. cbn [app] in Hc. destruct (token_at _ _ _ Hc) as (K & U).
      rewrite factor_char by congruence. rewrite U, Hv, s32_small by lia.
      rewrite emit_push by lia. rewrite append_code, (get_code _ _ _ _ Hc), Z.mod_small by lia. reflexivity.
    - intros env z V. cbn [fvalue] in V. injection V as <-. split; [exact R|].
      unfold words. cbn [is32 class_of]. rewrite Z.mod_small by lia. apply computes_push; [lia|unfold need; cbn; lia].
  Qed.

  Lemma main_factor_var t x : spells_var t x -> Pf [t] (FVar x).
  Proof.
    intros Sv ctx T HT HR. cbn [ftype] in HT. destruct (class_of (vty x)) as [cl|] eqn:Cx; [|discriminate]. injection HT as <-.
    destruct (var_sound lev x) as (ps & E & C); [congruence|apply HR; cbn; auto|].
    exists ps, 1%nat. split.
    - intros c rest m Hc G Hm. destruct m as [|m]; [lia|]. cbn [app] in Hc. apply (E t c rest m ctx Sv G Hc).
    - intros env z V. cbn [fvalue] in V. apply limit_some in V. destruct V as (-> & R). split; [exact R|]. exact (C env).
  Qed.

  Theorem grammar_sound : (forall ts f, gfactor ts f -> Pf ts f) /\ (forall ts t, gterm ts t -> Pt ts t) /\
    (forall ts s, gsimple ts s -> Ps ts s) /\ (forall ts e, gexpr ts e -> Pe ts e).
  Proof.
    destruct grammar_nonempty as (NF & NT & NS & NE).
    apply grammar_ind; intros.
    - apply main_factor_int; assumption.
    - apply main_factor_bool; assumption.
    - apply main_factor_char; assumption.
    - apply main_factor_var; assumption.
    - apply main_factor_paren; eauto.
    - apply main_factor_not; eauto.
    - apply main_factor_cast; eauto.
    - apply main_factor_fun; eauto.
    - intros ctx T HT HR. destruct (H ctx T HT HR) as (ps & N & E & C). exists ps, N, 1%nat. split; [|exact C].
      intros c rest n Hc G Hn. replace (n + 1)%nat with (S n) by lia. rewrite term_S, (E c rest n Hc G Hn). reflexivity.
    - apply main_term_mul; eauto.
    - apply (main_simple_term [] ts t false); eauto.
    - apply (main_simple_term [a] ts t false); eauto.
    - apply (main_simple_term [a] ts t true); eauto.
    - apply main_simple_add; eauto.
    - apply main_expr_simple; assumption.
    - apply main_expr_rel; eauto.
  Qed.
End Main.
