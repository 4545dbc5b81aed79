(** Enumerated types and subranges: what is well-formed is accepted; sets. *)

From Coq Require Import ZArith Bool List Lia ZifyBool.
From Verif Require Import Words ExprModel DeclModel DeclTypes DeclSpec DeclRun DeclRead RangeSpec RangeProofs RangeSound.
Import ListNotations.
Open Scope Z_scope.

Lemma const_tok m w k v r u : constant m w k v -> In k [0x02; 0x03; 0x54] -> 0 <= v < 2147483648 ->
  tok (w :: r) m = k /\ val (w :: r) m u = v.
Proof.
  intros C I V. destruct C as [v|v|n p s k v q La Ks Ps]; [split; reflexivity|split; reflexivity|].
  unfold tok, val. rewrite (looked_latest n r m p s La). split; [exact Ks|]. destruct s as [a b c]. cbn in Ps. subst c.
  unfold u32. apply Z.mod_small. lia.
Qed.
Lemma const_ptr m n p s r : latest m n p s -> ptr (RId n :: r) m = Some p.
Proof. intros La. unfold ptr. rewrite (looked_latest n r m p s La). reflexivity. Qed.

Lemma latest_ext l e n p s : latest l n p s -> sName e <> n -> latest (l ++ [e]) n p s.
Proof.
  intros (N & Ns & Nk & La) E. assert (P : (p < length l)%nat) by (apply nth_error_Some; congruence).
  split; [rewrite nth_error_app1 by exact P; exact N|]. split; [exact Ns|]. split; [exact Nk|].
  intros j s' Hj Nj Es. destruct (Nat.lt_ge_cases j (length l)) as [J|J].
  - rewrite nth_error_app1 in Nj by exact J. exact (La j s' Hj Nj Es).
  - rewrite nth_error_app2 in Nj by exact J. destruct (j - length l)%nat as [|i]; [cbn in Nj; inversion Nj; congruence|destruct i; discriminate].
Qed.
Lemma constant_ext l e w k v : constant l w k v -> w <> RId (sName e) -> constant (l ++ [e]) w k v.
Proof.
  intros C K. destruct C as [v|v|n p s k v q La Ks Ps]; try constructor.
  eapply c_name; [|exact Ks|exact Ps]. apply latest_ext; [exact La|congruence].
Qed.
Lemma bound_ext l e w v : bound l w v -> ~ In (RId (sName e)) w -> bound (l ++ [e]) w v.
Proof.
  intros B K. destruct B as [w v C R|w v C R|w v C R]; constructor; try exact R; apply constant_ext; try exact C; intros ->; apply K; cbn; auto.
Qed.

Lemma get_ok d : exists d', getToken d = Done tt d' /\ cur (rest d) d' /\ same d d' /\ syms d' = syms d /\ derrs d' = derrs d /\ d' = next_from 0 d.
Proof.
  exists (next_from 0 d). split; [reflexivity|]. apply get_cur. reflexivity.
Qed.

Lemma value_ok d v : gUInt d = v -> 0 <= v <= 65535 -> subrange_value d = Done (s16 v) d.
Proof. intros <- R. unfold subrange_value. rewrite bind_uint. replace (65535 <? gUInt d) with false by lia. reflexivity. Qed.

Lemma signed_ok w r v d : cur (w ++ r) d -> bound (syms d) w v ->
  (gTok d = tINT_CONST \/ gTok d = tMINUS \/ gTok d = tPLUS) /\
  exists d', subrange_signed d = Done (Some v) d' /\ rest d' = r /\ same d d' /\ syms d' = syms d /\ derrs d' = derrs d.
Proof.
  intros (C1 & C2 & C3 & (u & C4) & C5) B. unfold subrange_signed. destruct B as [w v C R|w v C R|w v C R]; cbn [app tl] in *.
  - destruct (const_tok _ _ _ _ r u C ltac:(cbn; auto) ltac:(lia)) as (T & V). rewrite T in C1. rewrite V in C4.
    split; [left; exact C1|]. exists d. split.
    { rewrite bind_token, C1. ck. erewrite bind_run by (apply (value_ok d v C4); lia). rewrite s16_id by lia. reflexivity. }
    split; [exact C5|]. split; [apply same_refl|auto].
  - split; [right; right; exact C1|]. destruct (get_ok d) as (d1 & G & Cu & Sm & Sy & De & _).
    destruct Cu as (K1 & K2 & K3 & (u1 & K4) & K5). rewrite Sy in *. rewrite C5 in *.
    destruct (const_tok _ _ _ _ r u1 C ltac:(cbn; auto) ltac:(lia)) as (T & V). rewrite T in K1. rewrite V in K4.
    exists d1. split.
    { rewrite bind_token, C1. cbn [tok]. ck. erewrite bind_run by exact G. rewrite bind_token, K1. ck.
      erewrite bind_run by (apply (value_ok d1 v K4); lia). rewrite s16_id by lia. reflexivity. }
    split; [exact K5|]. auto.
  - split; [right; left; exact C1|]. destruct (get_ok d) as (d1 & G & Cu & Sm & Sy & De & _).
    destruct Cu as (K1 & K2 & K3 & (u1 & K4) & K5). rewrite Sy in *. rewrite C5 in *.
    destruct (const_tok _ _ _ _ r u1 C ltac:(cbn; auto) ltac:(lia)) as (T & V). rewrite T in K1. rewrite V in K4.
    exists d1. split.
    { rewrite bind_token, C1. cbn [tok]. ck. erewrite bind_run by exact G. rewrite bind_token, K1. ck.
      erewrite bind_run by (apply (value_ok d1 v K4); lia). unfold ret. do 2 f_equal.
      destruct (Z.eq_dec v 32768) as [->|Nv]; [reflexivity|]. rewrite (s16_id v) by lia. apply s16_id. lia. }
    split; [exact K5|]. auto.
Qed.

Lemma expect_ok t e r d : cur (RK t :: r) d -> exists d', expect t e d = Done tt d' /\ cur r d' /\ same d d' /\ syms d' = syms d /\ derrs d' = derrs d /\
  d' = next_from 0 d /\ rest d = r.
Proof.
  intros (C1 & _ & _ & _ & C5). destruct (get_ok d) as (d1 & G & Cu & Sm & Sy & De & N). exists d1.
  unfold expect. rewrite bind_token, C1. cbn [tok]. rewrite Z.eqb_refl. cbn [tl] in C5. rewrite C5 in Cu. auto 8.
Qed.

Lemma unused_ext l e n : unused l n -> sName e <> n -> unused (l ++ [e]) n.
Proof.
  intros U E j s N Ns. destruct (Nat.lt_ge_cases j (length l)) as [J|J].
  - rewrite nth_error_app1 in N by exact J. exact (U j s N Ns).
  - rewrite nth_error_app2 in N by exact J. destruct (j - length l)%nat as [|i]; [cbn in N; inversion N; congruence|destruct i; discriminate].
Qed.

Lemma enum_ok tp : forall ns k i r d, ns <> [] -> NoDup ns -> (forall n, In n ns -> unused (syms d) n) ->
  rest d = commas ns ++ r -> (length ns <= k)%nat -> tok r (syms d ++ numbered tp i ns) <> tCOMMA ->
  exists d', enum_loop k tp i d = Done (i + Z.of_nat (length ns)) d' /\ cur r d' /\ same d d' /\
    syms d' = syms d ++ numbered tp i ns /\ derrs d' = derrs d.
Proof.
  induction ns as [|n ns IH]; intros k i r d NE ND Un R K NC; [congruence|].
  destruct k as [|k]; [cbn in K; lia|]. inversion ND as [|? ? Nn ND']; subst.
  destruct (get_ok d) as (d1 & G & Cu & Sm & Sy & De & _). destruct Cu as (C1 & C2 & C3 & (u & C4) & C5).
  assert (W : rest d = RId n :: tl (rest d)) by (rewrite R; destruct ns; reflexivity).
  pose proof (Un n ltac:(cbn; auto)) as U.
  assert (T : gTok d1 = tIDENT /\ gStr d1 = n).
  { rewrite C1, C3, W, Sy. unfold tok, str. rewrite looked_unused by exact U. auto. }
  destruct T as (T1 & T2).
  set (e := mkS n sSCALAR_OBJECT (PConst i (Some tp))).
  set (d2 := set_syms (syms d1 ++ [e]) d1).
  destruct (get_ok d2) as (d3 & G3 & Cu3 & Sm3 & Sy3 & De3 & _).
  cbn [enum_loop].
  assert (ST : forall B (kk : Z -> M B), (getToken;; t <- token;; m <- (if t =? tIDENT then name <- tkn_str;; _ <- add_const name sSCALAR_OBJECT i (Some tp);; getToken;; ret (i + 1) else error eIDENT;; ret i);; kk m) d = kk (i + 1) d3).
  { intros B kk. erewrite bind_run by exact G. rewrite bind_token, T1. ck.
    rewrite bind_assoc, bind_str, T2. rewrite bind_assoc. erewrite bind_run by reflexivity. fold e. fold d2.
    rewrite bind_assoc. erewrite bind_run by exact G3. rewrite bind_ret. reflexivity. }
  rewrite ST. clear ST. rewrite bind_token. unfold d2 in *. cbn [rest syms derrs set_syms] in *. rewrite C5, Sy in *.
  destruct ns as [|n2 ns].
  - cbn [commas app] in R. rewrite R in *. cbn [tl] in Cu3. pose proof Cu3 as (J1 & _). rewrite J1, Sy3.
    cbn [numbered] in NC. fold sSCALAR_OBJECT in NC. fold e in NC. replace (tok r (syms d ++ [e]) =? tCOMMA) with false by lia.
    exists d3. split; [reflexivity|]. split; [exact Cu3|]. split; [|split; [exact Sy3|congruence]].
    eapply same_trans; [exact Sm|]. revert Sm3. unfold same. cbn. tauto.
  - rewrite commas_cons in R by discriminate. cbn [app] in R. rewrite R in *. cbn [tl] in Cu3. pose proof Cu3 as (J1 & _ & _ & _ & J5).
    rewrite J1. cbn [tok]. ck. cbn [tl] in J5.
    destruct (IH k (i + 1) r d3 ltac:(discriminate) ND') as (d' & h1 & h2 & h3 & h4 & h5).
    + intros x Ix. rewrite Sy3. apply unused_ext; [apply Un; right; exact Ix|]. cbn. intros ->. contradiction.
    + exact J5.
    + cbn [length] in *. lia.
    + rewrite Sy3, <- app_assoc. exact NC.
    + exists d'. split; [rewrite h1; cbn [length]; f_equal; lia|]. split; [exact h2|]. split.
      { eapply same_trans; [exact Sm|]. eapply same_trans; [|exact h3]. revert Sm3. unfold same. cbn. tauto. }
      split; [rewrite h4, Sy3, <- app_assoc; reflexivity|congruence].
Qed.

Lemma add_type_ok name ty size q d : 0 <= size < 65536 -> add_type name ty size q d =
  Done (length (syms d)) (set_syms (syms d ++ [at_type name (mkTy ty 0 0 size 0 0 q None)]) d).
Proof. intros S. unfold add_type, add_sym, u16. rewrite Z.mod_small by lia. reflexivity. Qed.
Lemma upd_type_ok l name t r g d : syms d = l ++ at_type name t :: r -> upd_type (length l) g d =
  Done tt (set_syms (l ++ at_type name (g t) :: r) d).
Proof.
  intros E. unfold upd_type, upd. do 2 f_equal. rewrite E.
  change (updl (length l) (ftype g) (l ++ at_type name t :: r) = l ++ at_type name (g t) :: r).
  unfold updl. rewrite firstn_app, firstn_all, Nat.sub_diag. cbn [firstn]. rewrite app_nil_r. f_equal.
  rewrite skipn_app, skipn_all, Nat.sub_diag. reflexivity.
Qed.

Ltac fin := unfold same in *; cbn [gLevel gStack gVarSize gParms fwd derrs syms rest set_syms] in *; intuition congruence.

Lemma complete k name d w r t new : ordinal (syms d) name w t new -> rest d = w ++ r ->
  Forall fit_sym (syms d) -> ~ In (RId name) w -> (forall v, In (RChr v) w -> 0 <= v <= 255) -> (length w <= k)%nat ->
  exists d', new_simple_type k name (next_from 0 d) = Done (Some (length (syms d))) d' /\
    read d w r (mkS name 0x44 (PType t) :: new) d'.
Proof.
  intros O R FS NI CH K. destruct (get_ok d) as (d0 & G & Cu & Sm & Sy & De & N0). rewrite <- N0. rewrite R in Cu.
  pose proof Cu as (C1 & C2 & C3 & (u & C4) & C5). unfold read.
  assert (CV : forall w k v, constant (syms d) w k v -> (forall v, w = RChr v -> 0 <= v <= 255) -> k <> 0x02 -> 0 <= v < 2147483648).
  { intros w' k' v C Q Nk. destruct C as [v|v|n p s k' v q La Ks Ps]; [congruence|pose proof (Q v eq_refl); lia|].
    rewrite Forall_forall in FS. destruct La as (N & _). apply nth_error_In in N. destruct (FS s N) as (_ & F). rewrite Ps in F. lia. }
  unfold new_simple_type. destruct O as [w1 w2 lo hi B1 B2 LE|w1 w2 lo hi B1 B2 LE|n p s v q La Ks Ps|ns NE ND Un].
  - rewrite <- app_assoc in Cu. rewrite <- Sy in B1. cbn [app] in Cu.
    destruct (signed_ok w1 (RK 0x0b :: w2 ++ r) lo d0 Cu B1) as (T & d1 & E1 & R1 & Sm1 & Sy1 & De1).
    set (ty := set_max MAXINT (set_min lo (set_sub sINT (mkTy sSUBRANGE 0 0 sINT_SIZE 0 0 None None)))).
    set (d2 := set_syms (syms d ++ [at_type name ty]) d1).
    destruct (get_ok d2) as (d3 & E3 & Cu3 & Sm3 & Sy3 & De3 & _). unfold d2 in *. cbn [rest syms derrs set_syms] in *.
    rewrite R1 in Cu3. destruct (expect_ok tSUBRANGE eSUBRANGE _ _ Cu3) as (d4 & E4 & Cu4 & Sm4 & Sy4 & De4 & _).
    assert (B2' : bound (syms d4) w2 hi).
    { rewrite Sy4, Sy3. apply bound_ext; [exact B2|]. cbn. intros I. apply NI. apply in_or_app. right. right. exact I. }
    destruct (signed_ok w2 r hi d4 Cu4 B2') as (T4 & d5 & E5 & R5 & Sm5 & Sy5 & De5).
    set (d6 := set_syms (syms d ++ [at_type name (set_max hi ty)]) d5).
    destruct (get_ok d6) as (d7 & E7 & Cu7 & Sm7 & Sy7 & De7 & N7).
    exists d7. split.
    { rewrite bind_token. replace (gTok d0 =? tLPAREN) with false by (unfold tLPAREN, tINT_CONST, tMINUS, tPLUS in *; lia).
      replace ((gTok d0 =? tINT_CONST) || (gTok d0 =? tMINUS) || (gTok d0 =? tPLUS)) with true by lia.
      erewrite bind_run by exact E1. cbv beta iota. erewrite bind_run by (apply add_type_ok; unfold sINT_SIZE; lia). rewrite Sy1, Sy.
      erewrite bind_run by (eapply (upd_type_ok (syms d) name _ []); reflexivity).
      erewrite bind_run by exact E3. erewrite bind_run by exact E4. rewrite bind_token.
      replace ((gTok d4 =? tINT_CONST) || (gTok d4 =? tMINUS) || (gTok d4 =? tPLUS)) with true by lia.
      rewrite bind_assoc. erewrite bind_run by exact E5. rewrite bind_ret. replace (hi <? lo) with false by lia.
      erewrite bind_run by (eapply (upd_type_ok (syms d) name ty []); rewrite Sy5, Sy4, Sy3; reflexivity).
      erewrite bind_run by exact E7. reflexivity. }
    unfold d6 in *. cbn [rest syms derrs set_syms] in *.
    split; [rewrite R, <- app_assoc; reflexivity|]. split; [rewrite Sy7; reflexivity|]. split; [congruence|].
    assert (SS : same d d7) by fin. destruct SS as (s1 & s2 & s3 & s4 & s5). do 5 (split; [assumption|]).
    eexists. split; [exact N7|]. cbn [rest syms set_syms]. split; [exact R5|congruence].
  - assert (V1 : 0 <= lo < 2147483648) by (eapply CV; [exact B1|intros v ->; apply CH; cbn; auto|lia]).
    assert (V2 : 0 <= hi < 2147483648) by (eapply CV; [exact B2|intros v ->; apply CH; cbn; auto|lia]).
    cbn [app] in *. rewrite Sy in C1, C4. destruct (const_tok _ _ _ _ (RK 0x0b :: w2 :: r) u B1 ltac:(cbn; auto) V1) as (T1 & U1).
    rewrite T1 in C1. rewrite U1 in C4. cbn [tl] in C5.
    set (ty := set_max MAXCHAR (set_min lo (set_sub sCHAR (mkTy sSUBRANGE 0 0 sCHAR_SIZE 0 0 None None)))).
    set (d2 := set_syms (syms d ++ [at_type name ty]) d0).
    destruct (get_ok d2) as (d3 & E3 & Cu3 & Sm3 & Sy3 & De3 & _). unfold d2 in *. cbn [rest syms derrs set_syms] in *.
    rewrite C5 in Cu3. destruct (expect_ok tSUBRANGE eSUBRANGE _ _ Cu3) as (d4 & E4 & Cu4 & Sm4 & Sy4 & De4 & _).
    assert (B2' : constant (syms d4) w2 0x03 hi).
    { rewrite Sy4, Sy3. apply constant_ext; [exact B2|]. cbn. intros ->. apply NI. cbn. auto. }
    pose proof Cu4 as (J1 & J2 & J3 & (u4 & J4) & J5).
    destruct (const_tok _ _ _ _ r u4 B2' ltac:(cbn; auto) V2) as (T2 & U2). rewrite T2 in J1. rewrite U2 in J4. cbn [tl] in J5.
    set (d6 := set_syms (syms d ++ [at_type name (set_max hi ty)]) d4).
    destruct (get_ok d6) as (d7 & E7 & Cu7 & Sm7 & Sy7 & De7 & N7).
    exists d7. split.
    { rewrite bind_token, C1. ck. cbn [orb]. rewrite bind_uint, C4.
      erewrite bind_run by (apply add_type_ok; unfold sCHAR_SIZE; lia). rewrite Sy.
      erewrite bind_run by (eapply (upd_type_ok (syms d) name _ []); reflexivity).
      erewrite bind_run by exact E3. erewrite bind_run by exact E4. rewrite bind_token, bind_uint, J1, J4. ck. cbn [negb orb].
      replace (hi <? lo) with false by lia.
      rewrite bind_assoc. erewrite bind_run by (eapply (upd_type_ok (syms d) name ty []); rewrite Sy4, Sy3; reflexivity).
      erewrite bind_run by exact E7. reflexivity. }
    unfold d6 in *. cbn [rest syms derrs set_syms] in *.
    split; [rewrite R; reflexivity|]. split; [rewrite Sy7; reflexivity|]. split; [congruence|].
    assert (SS : same d d7) by fin. destruct SS as (s1 & s2 & s3 & s4 & s5). do 5 (split; [assumption|]).
    eexists. split; [exact N7|]. cbn [rest syms set_syms]. split; [exact J5|congruence].
  - assert (CC : constant (syms d) (RId n) 0x54 v) by (eapply c_name; eassumption).
    assert (V1 : 0 <= v < 2147483648) by (eapply CV; [exact CC|discriminate|lia]).
    cbn [app] in *. rewrite Sy in C1, C2, C4. destruct (const_tok _ _ _ _ (RK 0x0b :: RId n :: r) u CC ltac:(cbn; auto) V1) as (T1 & U1).
    rewrite T1 in C1. rewrite U1 in C4. rewrite (const_ptr _ _ _ _ _ La) in C2. cbn [tl] in C5.
    set (ty := set_max MAXINT (set_min (s32 v) (set_sub sSCALAR_OBJECT (mkTy sSUBRANGE 0 0 sINT_SIZE 0 0 (Some p) None)))).
    set (d2 := set_syms (syms d ++ [at_type name ty]) d0).
    destruct (get_ok d2) as (d3 & E3 & Cu3 & Sm3 & Sy3 & De3 & _). unfold d2 in *. cbn [rest syms derrs set_syms] in *.
    rewrite C5 in Cu3. destruct (expect_ok tSUBRANGE eSUBRANGE _ _ Cu3) as (d4 & E4 & Cu4 & Sm4 & Sy4 & De4 & _).
    assert (La4 : latest (syms d4) n p s).
    { rewrite Sy4, Sy3. apply latest_ext; [exact La|]. cbn. intros ->. apply NI. cbn. auto. }
    assert (B2' : constant (syms d4) (RId n) 0x54 v) by (eapply c_name; eassumption).
    pose proof Cu4 as (J1 & J2 & J3 & (u4 & J4) & J5).
    destruct (const_tok _ _ _ _ r u4 B2' ltac:(cbn; auto) V1) as (T2 & U2). rewrite T2 in J1. rewrite U2 in J4. cbn [tl] in J5.
    rewrite (const_ptr _ _ _ _ _ La4) in J2.
    set (d6 := set_syms (syms d ++ [at_type name (set_max (s32 v) ty)]) d4).
    destruct (get_ok d6) as (d7 & E7 & Cu7 & Sm7 & Sy7 & De7 & N7).
    exists d7. split.
    { rewrite bind_token, C1. ck. cbn [orb]. rewrite bind_uint, C4, bind_ptr, C2.
      erewrite bind_run by (apply add_type_ok; unfold sINT_SIZE; lia). rewrite Sy.
      erewrite bind_run by (eapply (upd_type_ok (syms d) name _ []); reflexivity).
      erewrite bind_run by exact E3. erewrite bind_run by exact E4. rewrite bind_token, bind_uint, bind_ptr, J1, J4, J2. ck.
      rewrite Nat.eqb_refl, Z.ltb_irrefl. cbn [negb orb].
      rewrite bind_assoc. erewrite bind_run by (eapply (upd_type_ok (syms d) name ty []); rewrite Sy4, Sy3; reflexivity).
      erewrite bind_run by exact E7. reflexivity. }
    unfold d6 in *. cbn [rest syms derrs set_syms] in *.
    split; [rewrite R; reflexivity|]. split; [rewrite Sy7; unfold ty; rewrite s32_id by lia; reflexivity|]. split; [congruence|].
    assert (SS : same d d7) by fin. destruct SS as (s1 & s2 & s3 & s4 & s5). do 5 (split; [assumption|]).
    eexists. split; [exact N7|]. cbn [rest syms set_syms]. split; [exact J5|congruence].
  - cbn [app] in Cu, C1, C5. cbn [tok tl] in C1, C5. rewrite <- app_assoc in C5. cbn [app] in C5.
    set (ty := mkTy sSCALAR 0 0 sINT_SIZE 0 0 None None).
    set (d2 := set_syms (syms d ++ [at_type name ty]) d0).
    destruct (enum_ok (length (syms d)) ns k 0 (RK 0x29 :: r) d2 NE ND) as (d3 & E3 & Cu3 & Sm3 & Sy3 & De3).
    { intros x Ix. destruct (Un x Ix) as (U1 & U2). cbn. apply unused_ext; [exact U1|]. cbn. congruence. }
    { exact C5. }
    { cbn [length] in K. rewrite app_length in K. cbn [length] in K.
      assert (H : forall l, (length l <= length (commas l))%nat); [|pose proof (H ns); lia].
      induction l as [|x l IHl]; [cbn; lia|]. destruct l; [cbn; lia|]. rewrite commas_cons by discriminate. cbn [length] in *. lia. }
    { cbn [tok]. discriminate. }
    cbn [Z.add] in E3. unfold d2 in *. cbn [rest syms derrs set_syms] in *. rewrite <- app_assoc in Sy3. cbn [app] in Sy3.
    set (d4 := set_syms (syms d ++ at_type name (set_max (Z.of_nat (length ns) - 1) ty) :: numbered (length (syms d)) 0 ns) d3).
    assert (Cu4 : cur (RK 0x29 :: r) d4) by (unfold d4; destruct Cu3 as (q1 & q2 & q3 & q4 & q5); repeat split; cbn in *; auto).
    destruct (expect_ok tRPAREN eRPAREN _ _ Cu4) as (d5 & E5 & Cu5 & Sm5 & Sy5 & De5 & N5 & R5).
    exists d5. split.
    { rewrite bind_token, C1. ck. erewrite bind_run by (apply add_type_ok; unfold sINT_SIZE; lia). rewrite Sy.
      erewrite bind_run by exact E3. erewrite bind_run by (eapply upd_type_ok; exact Sy3).
      erewrite bind_run by exact E5. reflexivity. }
    unfold d4 in *. cbn [rest syms derrs set_syms] in *.
    split; [rewrite R; reflexivity|]. split; [rewrite Sy5; reflexivity|]. split; [congruence|].
    assert (SS : same d d5) by fin. destruct SS as (s1 & s2 & s3 & s4 & s5). do 5 (split; [assumption|]).
    eexists. split; [exact N5|]. cbn [rest syms set_syms]. split; [exact R5|congruence].
Qed.

(** ** Sets *)

Lemma ordinal_first l name w t new r : ordinal l name w t new -> (forall n p s, latest l n p s -> fit_sym s) -> tok (w ++ r) l <> sTYPE.
Proof.
  intros O FS.
  assert (CT : forall w k v r, constant l w k v -> In k [0x02; 0x03; 0x54] -> tok (w :: r) l <> sTYPE).
  { intros w' k v r' C I. destruct C as [v|v|n p s k v q La Ks Ps]; try discriminate.
    unfold tok. rewrite (looked_latest n r' l p s La), Ks. cbn in I. unfold sTYPE. lia. }
  destruct O as [w1 w2 lo hi B1 B2 LE|w1 w2 lo hi B1 B2 LE|n p s v q La Ks Ps|ns NE ND Un].
  - destruct B1 as [w v C R|w v C R|w v C R]; cbn [app]; [eapply CT; [exact C|cbn; auto]|discriminate|discriminate].
  - cbn [app]. eapply CT; [exact B1|cbn; auto].
  - cbn [app]. eapply CT; [eapply c_name; eassumption|cbn; auto].
  - discriminate.
Qed.

Lemma ordinal_range l name w t new : ordinal l name w t new -> tType t = 0x53 \/ tType t = 0x55.
Proof. intros O. destruct O; cbn; auto. Qed.

Lemma cur_next d : cur (rest d) (next_from 0 d).
Proof. destruct (get_ok d) as (d1 & G & Cu & _ & _ & _ & N). rewrite <- N. exact Cu. Qed.

Lemma set_ok td k name d w r p t new : elements (syms d) w p t new -> rest d = RK 0xa0 :: RK 0x98 :: w ++ r ->
  Forall fit_sym (syms d) -> ~ In (RId (-1)) w -> (forall v, In (RChr v) w -> 0 <= v <= 255) -> (length w <= k)%nat ->
  exists q d' s, new_complex_type td k name (next_from 0 d) = Done (Some q) d' /\
    syms d' = syms d ++ new ++ [mkS name 0x44 (PType s)] /\ q = length (syms d ++ new) /\
    (forall y r', r = RK y :: r' -> gTok d' = y /\ rest d' = r') /\
    let c := tMax t - tMin t + 1 in
    (-32768 <= c <= 64 -> derrs d' = derrs d /\ s = set_type t p) /\
    (64 < c <= 32767 -> derrs d' = derrs d ++ [0x59]).
Proof.
  intros El R FS NI CH K. destruct (get_ok d) as (d0 & G & Cu & Sm & Sy & De & N0). rewrite <- N0. rewrite R in Cu.
  pose proof Cu as (C1 & C2 & C3 & (u & C4) & C5). cbn [tok tl] in C1, C5.
  destruct (get_ok d0) as (d1 & G1 & Cu1 & Sm1 & Sy1 & De1 & _). rewrite C5 in Cu1.
  destruct (expect_ok tOF eOF _ _ Cu1) as (d2 & E2 & Cu2 & Sm2 & Sy2 & De2 & N2 & R2).
  assert (EL : exists d3, (q <- ordinal_type_identifier;; match q with Some _ => ret q | None => declare_simple_type k (-1) end) d2 = Done (Some p) d3 /\
    syms d3 = syms d ++ new /\ derrs d3 = derrs d /\ rest d3 = tl r /\ gTok d3 = tok r (syms d ++ new) /\
    exists s, nth_error (syms d3) p = Some s /\ sParm s = PType t).
  { destruct El as [w t new O|n p s t La Ks Ps T].
    - assert (T2 : gTok d2 <> sTYPE).
      { destruct Cu2 as (T & _). rewrite T, Sy2, Sy1, Sy. eapply ordinal_first; [exact O|].
        intros n p s (N & _). rewrite Forall_forall in FS. apply FS. eapply nth_error_In; exact N. }
      assert (SE : syms d1 = syms d) by congruence.
      rewrite <- SE in O, FS. destruct (complete k (-1) d1 w r t new O R2 FS NI CH K) as (d3 & E3 & Rd).
      rewrite <- N2 in E3. destruct Rd as (q1 & q2 & q3 & q4 & q5 & q6 & q7 & q8 & dn & q9 & q10 & q11).
      rewrite SE in *. exists d3. split.
      { unfold ordinal_type_identifier. rewrite bind_assoc.
        erewrite bind_run by (apply tid_none; exact T2). cbv beta iota. rewrite bind_ret. cbv beta iota.
        unfold declare_simple_type. erewrite bind_run by exact E3. reflexivity. }
      split; [exact q2|]. split; [congruence|]. rewrite q9 at 1 2. rewrite next_eq. cbn [rest gTok]. rewrite q10, q11, q2.
      split; [reflexivity|]. split; [reflexivity|]. eexists. split; [rewrite nth_error_app2, Nat.sub_diag by lia; reflexivity|reflexivity].
    - assert (Tn : gTok d2 = sTYPE /\ gPtr d2 = Some p).
      { destruct Cu2 as (T1 & T3 & _). rewrite T1, T3, Sy2, Sy1, Sy. cbn [app]. split; [|eapply const_ptr; exact La].
        unfold tok. rewrite (looked_latest n r _ p s La). exact Ks. }
      destruct Tn as (T1 & T3). destruct La as (N & La).
      destruct (get_ok d2) as (d3 & G3 & Cu3 & Sm3 & Sy3 & De3 & _).
      assert (R3 : rest d2 = r) by (destruct Cu2 as (_ & _ & _ & _ & h); exact h). rewrite R3 in Cu3.
      assert (SE : syms d3 = syms d) by congruence.
      set (d4 := mkD (gTok d3) (gPtr d3) (gStr d3) (gUInt d3) (rest d3) (syms d3) (gLevel d3) (gStack d3) (s32 (tSize t)) (gParms d3) (fwd d3) (derrs d3)).
      assert (GT4 : get_type p d4 = Done t d4).
      { unfold get_type, get_sym, bind. assert (X : nth_error (syms d4) p = Some s) by (unfold d4; cbn [syms]; rewrite SE; exact N).
        rewrite X, Ps. reflexivity. }
      exists d4. split.
      { unfold ordinal_type_identifier, type_identifier. rewrite bind_assoc, bind_assoc, bind_token, T1. ck.
        rewrite bind_assoc, bind_ptr, T3. cbv beta iota. rewrite bind_assoc. erewrite bind_run by exact G3.
        rewrite bind_assoc. erewrite bind_run by (unfold get_type, get_sym, bind; rewrite SE, N, Ps; reflexivity).
        rewrite bind_assoc. erewrite bind_run by reflexivity. fold d4.
        replace (tType t =? sSTRING) with false by (unfold sSTRING; lia). rewrite bind_ret. cbv beta iota. rewrite bind_assoc.
        erewrite bind_run by exact GT4.
        rewrite bind_ret. cbv beta iota. replace (is_ordinal (tType t)) with true; [reflexivity|].
        unfold is_ordinal. destruct T as [->| ->]; reflexivity. }
      unfold d4. cbn [syms derrs rest gTok]. rewrite app_nil_r. split; [exact SE|]. split; [congruence|].
      destruct Cu3 as (h1 & _ & _ & _ & h5). split; [exact h5|]. split; [rewrite h1, SE; reflexivity|].
      exists s. rewrite SE. auto. }
  destruct EL as (d3 & E3 & Sy3 & De3 & R3 & T3 & s & Ns & Ps).
  assert (Tt : tType t = 0x53 \/ tType t = 0x55) by (destruct El as [w t new O|]; [eapply ordinal_range; exact O|assumption]).
  set (st0 := mkTy sSET 0 0 sSET_SIZE 0 0 (Some p) None).
  set (d4 := set_syms (syms d3 ++ [at_type name st0]) d3).
  set (st1 := set_max (tMax t) (set_min (tMin t) (set_sub (tType t) st0))).
  set (d5 := set_syms (syms d3 ++ [at_type name st1]) d4).
  assert (RUN : new_complex_type td k name d0 =
    ((if sSET_MAXELEM <? s16 (tMax t - tMin t + 1) then error eSETRANGE;; upd_type (length (syms d3)) (fun t => set_max (tMin t + sSET_MAXELEM - 1) t) else ret tt);; ret (Some (length (syms d3)))) d5).
  { unfold new_complex_type. rewrite bind_token, C1. ck. erewrite bind_run by exact G1. erewrite bind_run by exact E2.
    rewrite <- bind_assoc. erewrite bind_run by exact E3. cbv beta iota.
    eapply eq_trans; [eapply bind_run; unfold get_type, get_sym, bind; rewrite Ns, Ps; reflexivity|]. cbv beta.
    replace (if tType t =? sSCALAR then true else tType t =? sSUBRANGE) with true by (destruct Tt as [-> | ->]; reflexivity).
    eapply eq_trans; [eapply bind_run; apply add_type_ok; unfold sSET_SIZE; lia|]. fold st0. fold d4.
    eapply eq_trans; [eapply bind_run; eapply (upd_type_ok (syms d3) name st0 []); reflexivity|]. reflexivity. }
  rewrite RUN. clear RUN. destruct (sSET_MAXELEM <? s16 (tMax t - tMin t + 1)) eqn:Q.
  - eexists _, _, _. split.
    { rewrite bind_assoc. erewrite bind_run by reflexivity.
      erewrite bind_run by (eapply (upd_type_ok (syms d3) name st1 []); reflexivity). reflexivity. }
    unfold d5, d4. cbn [syms rest gTok derrs set_syms]. rewrite Sy3, <- app_assoc. split; [reflexivity|]. split; [reflexivity|].
    split; [intros y r' ->; split; [exact T3|exact R3]|]. cbv zeta. split.
    + intros H. rewrite s16_id in Q by lia. unfold sSET_MAXELEM in Q. lia.
    + intros _. rewrite De3. reflexivity.
  - eexists _, _, _. split; [rewrite bind_ret; reflexivity|].
    unfold d5, d4. cbn [syms rest gTok derrs set_syms]. rewrite Sy3, <- app_assoc. split; [reflexivity|]. split; [reflexivity|].
    split; [intros y r' ->; split; [exact T3|exact R3]|]. cbv zeta. split.
    + intros _. rewrite De3. split; reflexivity.
    + intros H. rewrite s16_id in Q by lia. unfold sSET_MAXELEM in Q. lia.
Qed.
