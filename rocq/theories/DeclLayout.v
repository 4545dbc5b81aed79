(** Types of variables and type definitions. *)

From Coq Require Import ZArith Bool List Lia ZifyBool.
From Verif Require Import Words ExprModel DeclModel DeclTypes DeclSpec DeclRun DeclRead DeclShape DeclArray DeclRecord DeclDenoter.
Import ListNotations.
Open Scope Z_scope.

Lemma zero_other E m : describes E m -> E 0 = EOther.
Proof. intros D. specialize (D 0). destruct (E 0); [lia|lia|reflexivity]. Qed.

Lemma next_st d : next_from 0 d = st (gLevel d) (gStack d) (gParms d) (fwd d) (derrs d) (gUInt d) (gVarSize d) (rest d) (syms d).
Proof. reflexivity. Qed.

Lemma st_k lev stk np fw er u v c l m : let d := st lev stk np fw er u v (RK c :: l) m in
  gTok d = c /\ rest d = l /\ syms d = m /\ gLevel d = lev /\ gStack d = stk /\ gParms d = np /\ fwd d = fw /\ derrs d = er /\ gVarSize d = v.
Proof. cbn. auto 12. Qed.

Lemma grows_app_inv own pos m m' : grows own pos m m' -> exists l, m' = m ++ l.
Proof.
  intros G. exists (skipn (length m) m'). rewrite <- (firstn_skipn (length m) m') at 1. f_equal.
  apply list_ext. intros i. destruct (Nat.lt_ge_cases i (length m)) as [H|H].
  - destruct (nth_error m i) as [s|] eqn:N; [|apply nth_error_None in N; lia].
    rewrite <- N. rewrite <- (grows_nth own pos m m' i s G N) in N.
    rewrite N. rewrite <- (firstn_skipn (length m) m') at 2. rewrite nth_error_app1; [reflexivity|].
    rewrite firstn_length. pose proof (grows_len _ _ _ _ G). lia.
  - rewrite (proj2 (nth_error_None m i) H). apply nth_error_None. rewrite firstn_length. lia.
Qed.

(** ** The type of a variable *)

Lemma layout E t n y r d :
  describes E (syms d) -> fine E t -> (length (written t) <= n)%nat -> y <> tLBRACK ->
  rest d = written t ++ RK y :: r ->
  exists p d', type_denoter n (-1) (next_from 0 d) = Done p d' /\
    gTok d' = y /\ rest d' = r /\ derrs d' = derrs d /\ gStack d' = gStack d /\ gVarSize d' = sizeof E t /\
    (exists l, syms d' = syms d ++ l) /\ describes E (syms d') /\
    shaped E (syms d') (length (syms d)) (length (syms d')) p t.
Proof.
  intros D F L Y R. pose proof (zero_other E _ D) as HO.
  destruct (denoter 0 0 (gLevel d) (gStack d) (gParms d) (fwd d) (derrs d) E HO) as (H & _).
  destruct (H t n (-1) L ltac:(lia) F (gUInt d) (gVarSize d) y r (syms d) D Y) as (p & m' & u' & e & G & Sh).
  rewrite next_st, R. eexists p, _. split; [exact e|].
  destruct (st_k (gLevel d) (gStack d) (gParms d) (fwd d) (derrs d) u' (sizeof E t) y r m')
    as (a1 & a2 & a3 & a4 & a5 & a6 & a7 & a8 & a9). rewrite a1, a2, a3, a5, a8, a9.
  repeat (split; [reflexivity|]). split; [eapply grows_app_inv; exact G|].
  split; [eapply describes_evolves; [exact HO|exact G|exact D]|exact Sh].
Qed.

(** ** Type definitions *)

Section Def.

Variables (lev : nat) (stk np : Z) (fw : list fref) (er : list Z).
Notation st := (st lev stk np fw er).

Lemma hide_describes n E m : describes E m -> describes (set_name n EOther E) m.
Proof using.
  intros D x. unfold set_name. destruct (x =? n); [exact I|apply D].
Qed.

Lemma named_not_complex td k name x y r u v m p s : latest m x p s -> sKind s = 0x44 ->
  new_complex_type td k name (st u v (RId x :: RK y :: r) m) = Done None (st u v (RId x :: RK y :: r) m).
Proof using.
  intros La K. destruct (st_named lev stk np fw er u v x (RK y :: r) m p s La) as (T1 & _).
  unfold new_complex_type. rewrite bind_token, T1, K. ck. reflexivity.
Qed.
Lemma named_not_simple k name x y r u v m p s : latest m x p s -> sKind s = 0x44 ->
  new_simple_type k name (st u v (RId x :: RK y :: r) m) = Done None (st u v (RId x :: RK y :: r) m).
Proof using.
  intros La K. destruct (st_named lev stk np fw er u v x (RK y :: r) m p s La) as (T1 & _).
  unfold new_simple_type. rewrite bind_token, T1, K. ck. reflexivity.
Qed.

Lemma parts_ok E n pos k t : E n = EOther -> fine E t -> (length (written t) <= k)%nat ->
  parts_read n pos lev stk np fw er E (type_denoter k (-1)) t.
Proof using.
  intros HO F L. destruct (denoter n pos lev stk np fw er E HO) as (H1 & H2).
  destruct t as [x|lo hi|lo hi|x|lo hi|lo hi more t|fs]; try exact I; cbn [parts_read].
  - apply H1; [|lia|apply F]. cbn [written length] in L. rewrite !app_length in L. cbn [length] in L. lia.
  - apply H2; [|lia|apply F]. cbn [written length] in L. rewrite app_length in L. cbn [length] in L. lia.
Qed.

Lemma define_st E n t k u v y r m : E n = EOther -> 0 < n -> describes E m -> fine E t -> (length (written t) <= k)%nat -> y <> tLBRACK ->
  exists u' v' m', declare_type k n (st u v (written t ++ RK y :: r) m) = Done tt (st u' v' (RK y :: r) m') /\
    grows n (place t m) m m' /\ made E m' (length m) (length m') (place t m) t /\
    exists s ty, nth_error m' (place t m) = Some s /\ sName s = n /\ sKind s = 0x44 /\ sParm s = PType ty /\
      tSize ty = sizeof E t /\ (flat t = true -> tPar ty = None).
Proof using.
  intros HO Pn D F L Y. assert (NS : ~ seen n n) by (unfold seen; lia).
  assert (CX : complex t \/ (exists x, t = TName x) \/ (exists lo hi, t = TRange lo hi) \/ (exists lo hi, t = TChars lo hi)).
  { destruct t; cbn; eauto 7. }
  destruct CX as [C|[(x & ->)|[(lo & hi & ->)|(lo & hi & ->)]]].
  - destruct (complex_st n (place t m) lev stk np fw er E HO (type_denoter k (-1)) k n t u v y r m C
      (parts_ok E n (place t m) k t HO F L) F D Y (or_intror (conj eq_refl eq_refl)) L) as (u' & v' & m' & e & G & Sh & Ca).
    exists u', v', m'. split.
    { unfold declare_type. erewrite bind_run by exact e. reflexivity. }
    split; [exact G|]. split.
    { destruct t; try contradiction; exact Sh. }
    destruct (shaped_type E m' _ _ _ t Sh) as (s & ty & N & K & Ps & Sz).
    destruct Ca as (s' & N' & Nm). rewrite N in N'. inversion N'; subst s'.
    exists s, ty. split; [exact N|]. split; [exact Nm|]. split; [exact K|]. split; [exact Ps|]. split; [exact Sz|].
    destruct t; try discriminate; try contradiction. intros _. cbn [shaped] in Sh.
    destruct Sh as (rr & (_ & s2 & N2 & _ & P2) & _ & Q & _). rewrite N in N2. inversion N2; subst s2. rewrite Ps in P2. inversion P2. exact Q.
  - destruct F as (z & f & En). destruct (described E m x z f D En) as (Px & Zr & q & s & t & La & Ks & Ps & Ss & _).
    destruct (tid_named lev stk np fw er x y r u v m q s t La Ks Ps ltac:(lia) Y) as (u' & Ti).
    set (e := mkS n sTYPE (PType (mkTy (tType t) 0 (tDim t) (tSize t) (tMin t) (tMax t) (Some q) (tIdx t)))).
    assert (G : grows n (length m) m (m ++ [e])) by (apply grows_app; unfold fresh; cbn; lia).
    assert (Ne : nth_error (m ++ [e]) (length m) = Some e) by (rewrite nth_error_app2, Nat.sub_diag by lia; reflexivity).
    exists u', (tSize t), (m ++ [e]). split.
    { cbn [written app]. unfold declare_type. erewrite bind_run by (eapply named_not_complex; eassumption). cbv beta iota.
      unfold declare_simple_type. sx. erewrite bind_run by (eapply named_not_simple; eassumption). cbv beta iota.
      sx. erewrite bind_run by exact Ti. cbv beta iota.
      sx. erewrite bind_run by (destruct La as (N & _); eapply get_type_st; eassumption). cbv beta.
      sx. rewrite bind_token, tok_k. cbv beta. replace (y =? tLBRACK) with false by lia. rewrite andb_false_r.
      sx. sx. sx. erewrite bind_run by (apply (add_type_st n); [exact I|exact NS|lia]). cbv beta.
      sx. sx. sx. rewrite updl_last. reflexivity. }
    split; [exact G|]. split.
    { cbn [made place]. eexists _, q, s. split; [split; [rewrite app_length; cbn; lia|exists e; split; [exact Ne|split; reflexivity]]|].
      cbn [tSize tPar]. split; [cbn [sizeof]; rewrite En; exact Ss|]. split; [|reflexivity].
      eapply (latest_evolves n); [|exact G|exact La]. split; [exact Px|congruence]. }
    eexists _, _. split; [exact Ne|]. split; [reflexivity|]. split; [reflexivity|]. split; [reflexivity|].
    split; [cbn [tSize sizeof]; rewrite En; exact Ss|discriminate].
  - destruct F as (F1 & F2).
    destruct (range_st n lev stk np fw er k n lo hi u v (RK y) r m F1 F2 NS I) as (u' & Rg).
    set (m' := m ++ [e_range n lo hi]) in *.
    assert (N : nth_error m' (length m) = Some (e_range n lo hi)) by (unfold m'; rewrite nth_error_app2, Nat.sub_diag by lia; reflexivity).
    exists u', v, m'. split.
    { unfold declare_type. cbn [written]. rewrite <- app_assoc. cbn [app].
      erewrite bind_run by (apply not_complex_st; apply w_int_first). cbv beta iota.
      unfold declare_simple_type. sx. erewrite bind_run by exact Rg. reflexivity. }
    split; [apply grows_app; unfold fresh; cbn; lia|]. split.
    { cbn [made shaped place]. eexists.
      split; [split; [unfold m'; rewrite app_length; cbn; lia|eexists; split; [exact N|split; reflexivity]]|]. cbn. auto 6. }
    eexists _, _. split; [exact N|]. cbn. auto 6.
  - pose proof F as F0. pose proof (chars_st n lev stk np fw er k n lo hi u v (RK y) r m F0 NS I) as Rg.
    set (m' := m ++ [e_chars n lo hi]) in *.
    assert (N : nth_error m' (length m) = Some (e_chars n lo hi)) by (unfold m'; rewrite nth_error_app2, Nat.sub_diag by lia; reflexivity).
    exists hi, v, m'. split.
    { unfold declare_type. cbn [written app].
      erewrite bind_run by (apply not_complex_st; exact I). cbv beta iota.
      unfold declare_simple_type. sx. erewrite bind_run by exact Rg. reflexivity. }
    split; [apply grows_app; unfold fresh; cbn; lia|]. split.
    { cbn [made shaped place]. eexists.
      split; [split; [unfold m'; rewrite app_length; cbn; lia|eexists; split; [exact N|split; reflexivity]]|]. cbn. auto 6. }
    eexists _, _. split; [exact N|]. cbn. auto 6.
Qed.

(** The name afterwards *)
Lemma define_latest E n t m m' s : E n = EFree -> describes E m -> grows n (place t m) m m' ->
  nth_error m' (place t m) = Some s -> sName s = n -> sKind s = 0x44 -> latest m' n (place t m) s.
Proof using.
  intros En D G N Nn K. pose proof (D n) as h. rewrite En in h. destruct h as (Pn & Fr).
  split; [exact N|]. split; [exact Nn|]. split; [rewrite K; discriminate|].
  intros j s' Hj Nj Ns. pose proof (grows_fresh _ _ _ _ j s' G) as h.
  assert (length m <= j)%nat by (destruct t; cbn [place] in Hj; lia).
  destruct (h ltac:(assumption) Nj) as [h1|[h1|h1]]; [lia|exact h1|lia].
Qed.

Lemma made_grows E own pos b c m m' p t : posE own E -> fine E t -> grows own pos m m' -> (c <= length m)%nat ->
  made E m b c p t -> made E m' b c p t.
Proof using.
  intros PE F G C. destruct t as [x|lo hi|lo hi|x|lo hi|lo hi more t|fs].
  1: { intros (r & q & s & T & Sz & La & Q). exists r, q, s.
       split; [eapply type_at_evolves; [eapply grows_evolves with (b := b) (c := c); exact G|lia|lia|exact T]|].
       split; [exact Sz|]. split; [|exact Q]. destruct F as (z & f & En).
       eapply latest_evolves; [eapply PE; exact En|exact G|exact La]. }
  all: cbn [made]; destruct (shaped_evolves own pos E PE) as (SE & _);
    intros H; eapply SE; [eapply grows_evolves with (b := b) (c := c); exact G|exact F|lia|lia|exact H].
Qed.

Lemma type_at_widen l b c b' c' p t : (b' <= b)%nat -> (c <= c')%nat -> type_at l b c p t -> type_at l b' c' p t.
Proof using. intros B C (H & r). split; [lia|exact r]. Qed.

Lemma made_widen E l b c b' c' p t : (b' <= b)%nat -> (c <= c')%nat -> made E l b c p t -> made E l b' c' p t.
Proof using.
  intros B C. destruct t as [x|lo hi|lo hi|x|lo hi|lo hi more t|fs].
  1: { intros (r & q & s & T & h). exists r, q, s. split; [eapply type_at_widen; eassumption|exact h]. }
  all: cbn [made]; destruct (shaped_widen E) as (SW & _); apply SW; assumption.
Qed.

Lemma type_loop_st : forall defs E k n u v y r m,
  fine_defs E defs -> describes E m -> y <> tIDENT -> (length defs < k)%nat -> (length (w_defs defs) <= n)%nat ->
  exists u' v' m', type_loop k n (st u v (w_defs defs ++ RK y :: r) m) = Done tt (st u' v' (RK y :: r) m') /\
    (length m <= length m')%nat /\ (exists l, m' = m ++ l) /\ describes (names_after E defs) m' /\
    defined E m' (length m) (length m') defs /\
    (** what was there before *)
    (forall E0 b c p t, (c <= length m)%nat -> made E0 m b c p t -> fine E0 t ->
       (forall x z f, E0 x = EType z f -> exists z' f', E x = EType z' f') -> made E0 m' b c p t) /\
    (forall x p s, (exists z f, E x = EType z f) -> latest m x p s -> latest m' x p s).
Proof using.
  induction defs as [|(n0 & t) defs IH]; intros E k n u v y r m F D Y K L; (destruct k as [|k]; [cbn in K; lia|]).
  - exists u, v, m. split.
    { cbn [w_defs app type_loop]. rewrite bind_token, tok_k. cbv beta. replace (y =? tIDENT) with false by lia. reflexivity. }
    split; [lia|]. split; [exists []; symmetry; apply app_nil_r|]. split; [exact D|]. split; [exact I|]. auto.
  - destruct F as (En & Ft & Fr). set (E1 := set_name n0 EOther E) in *.
    set (E2 := set_name n0 (EType (sizeof E1 t) (flat t)) E) in *.
    pose proof (D n0) as h. rewrite En in h. destruct h as (Pn & Fr0).
    assert (HO : E1 n0 = EOther) by (unfold E1, set_name; rewrite Z.eqb_refl; reflexivity).
    assert (D1 : describes E1 m) by (apply hide_describes; exact D).
    cbn [w_defs length] in L. rewrite app_length in L. cbn [length] in L.
    destruct (st_free lev stk np fw er u v n0 (RK 0x3d :: (written t ++ RK 0x3b :: w_defs defs) ++ RK y :: r) m Fr0) as (T1 & T2).
    set (u1 := gUInt (st u v (RId n0 :: RK 0x3d :: (written t ++ RK 0x3b :: w_defs defs) ++ RK y :: r) m)).
    destruct (define_st E1 n0 t n u1 v 0x3b (w_defs defs ++ RK y :: r) m HO Pn D1 Ft ltac:(lia) ltac:(discriminate))
      as (u2 & v2 & m2 & e2 & G2 & Md & s & ty & Ns & Nn & Kn & Pt & Sz & Fl).
    pose proof (define_latest E n0 t m m2 s En D G2 Ns Nn Kn) as La.
    assert (D2 : describes E2 m2).
    { intros x. unfold E2, set_name. destruct (x =? n0) eqn:Ex.
      - apply Z.eqb_eq in Ex. subst x. split; [exact Pn|]. split; [apply (proj1 (sizeof_pos E1 m D1) t Ft)|].
        exists (place t m), s, ty. auto 7.
      - pose proof (describes_evolves n0 _ E1 _ _ m m2 HO G2 D1 x) as h. unfold E1, set_name in h. rewrite Ex in h. exact h. }
    destruct (IH E2 k n u2 v2 y r m2 Fr D2 Y ltac:(cbn in K; lia) ltac:(lia)) as (u3 & v3 & m3 & e3 & L3 & (l3 & A3) & D3 & Df3 & Old3 & Lat3).
    pose proof (grows_len _ _ _ _ G2) as L2.
    assert (PE1 : posE n0 E1).
    { intros x z f Ex. unfold E1, set_name in Ex. destruct (x =? n0) eqn:E0; [discriminate|].
      pose proof (D x) as h. rewrite Ex in h. split; [apply h|lia]. }
    exists u3, v3, m3. split.
    { cbn [w_defs app type_loop]. rewrite bind_token. rewrite T1. cbv beta. ck.
      rewrite bind_str, T2. cbv beta. erewrite bind_run by apply get_st. fold u1. sx.
      rewrite <- app_assoc. cbn [app]. erewrite bind_run by exact e2. cbv beta. sx. sx. exact e3. }
    split; [lia|]. split.
    { destruct (grows_app_inv _ _ _ _ G2) as (l2 & ->). exists (l2 ++ l3). rewrite A3, app_assoc. reflexivity. }
    split; [exact D3|]. split; [split|split].
    + exists (place t m), s. split; [apply Lat3; [|exact La]|].
      { exists (sizeof E1 t), (flat t). unfold E2, set_name. rewrite Z.eqb_refl. reflexivity. }
      apply (made_widen E1 m3 (length m) (length m2)); [lia|lia|].
      apply Old3; [lia|exact Md|exact Ft|].
      intros x z f Ex. unfold E2, set_name. unfold E1, set_name in Ex. destruct (x =? n0); [eauto|eauto].
    + fold E2. clear - Df3 L2.
      assert (W : forall defs E b b' c, (b' <= b)%nat -> defined E m3 b c defs -> defined E m3 b' c defs).
      { induction defs0 as [|(x & t0) defs0 IHd]; intros E0 b b' c B; cbn [defined]; [auto|].
        intros ((p & s & La & Md) & h). split; [|eapply IHd; eassumption].
        exists p, s. split; [exact La|]. eapply made_widen; [exact B|apply Nat.le_refl|exact Md]. }
      eapply W; [|exact Df3]. exact L2.
    + intros E0 b c p t0 C Md0 F0 Sub. apply Old3; [lia| |exact F0|].
      * eapply made_grows; [|exact F0|exact G2|exact C|exact Md0].
        intros x z f Ex. destruct (Sub x z f Ex) as (z' & f' & E'). pose proof (D x) as h. rewrite E' in h.
        split; [apply h|congruence].
      * intros x z f Ex. destruct (Sub x z f Ex) as (z' & f' & E'). unfold E2, set_name. destruct (x =? n0); eauto.
    + intros x p s0 (z & f & Ex) La0. apply Lat3.
      * unfold E2, set_name. destruct (x =? n0); eauto.
      * eapply latest_evolves; [|exact G2|exact La0]. pose proof (D x) as h. rewrite Ex in h. split; [apply h|congruence].
Qed.

End Def.

Lemma definitions E defs n k y r d :
  describes E (syms d) -> fine_defs E defs -> defs <> [] -> y <> tIDENT ->
  (length (w_defs defs) <= n)%nat -> rest d = w_defs defs ++ RK y :: r -> fwd d = [] ->
  exists d', type_group n (next_from k d) = Done tt d' /\
    gTok d' = y /\ rest d' = r /\ derrs d' = derrs d /\ gStack d' = gStack d /\ (exists l, syms d' = syms d ++ l) /\
    describes (names_after E defs) (syms d') /\ defined E (syms d') (length (syms d)) (length (syms d')) defs.
Proof.
  intros D F NE Y L R W.
  assert (N0 : next_from k d = next_from 0 d).
  { destruct defs as [|(n0 & t) defs]; [congruence|]. destruct F as (En & _). pose proof (D n0) as h. rewrite En in h.
    destruct h as (_ & h). unfold next_from. rewrite R. cbn [w_defs app].
    assert (FN : forall start kk l acc, (forall j s, nth_error l j = Some s -> sName s = n0 -> sKind s = 0x59) -> find_sym n0 start kk l acc = acc).
    { intros start. intros kk l. revert kk. induction l as [|s l IH]; intros kk acc H; cbn [find_sym]; [reflexivity|].
      rewrite IH by (intros j s' Hj; exact (H (S j) s' Hj)).
      pose proof (H 0%nat s eq_refl) as H0. unfold sRECORD_OBJECT.
      destruct (sName s =? n0) eqn:E1; [|rewrite andb_false_r; reflexivity]. rewrite H0 by lia. rewrite andb_false_r. reflexivity. }
    rewrite !FN by exact h. reflexivity. }
  rewrite N0, next_st, R, W.
  assert (LD : (length defs < n)%nat).
  { assert (H : forall defs, (2 * length defs <= length (w_defs defs))%nat).
    { clear. induction defs as [|(x & t) defs IH]; cbn [w_defs length]; [lia|]. rewrite app_length. cbn [length]. lia. }
    pose proof (H defs). destruct defs; [congruence|cbn [length] in *; lia]. }
  destruct (type_loop_st (gLevel d) (gStack d) (gParms d) [] (derrs d) defs E n n (gUInt d) (gVarSize d) y r (syms d) F D Y LD L)
    as (u' & v' & m' & e & L' & A & D' & Df & _).
  destruct (st_k (gLevel d) (gStack d) (gParms d) [] (derrs d) u' v' y r m')
    as (a1 & a2 & a3 & a4 & a5 & a6 & a7 & a8 & a9).
  eexists. split.
  { unfold type_group. erewrite bind_run by exact e. unfold resolve_forward. rewrite a7. cbn [resolve_loop].
    replace (set_fwd [] _) with (st (gLevel d) (gStack d) (gParms d) [] (derrs d) u' v' (RK y :: r) m') by reflexivity. reflexivity. }
  rewrite a1, a2, a3, a5, a8. auto 10.
Qed.

(** ** Fields *)

Lemma fields_chain E l rp c : forall fs off i, (forall t, fine E t -> 0 <= sizeof E t) -> fine_fields E fs ->
  fields_at E l rp off i c fs -> 0 <= off ->
  exists gs, chain l (Some i) gs /\ Z.of_nat (length gs) = number fs /\ all_fields_apart gs /\
    Forall (fun g => off <= rOff g /\ rOff g + rSize g <= size_from E off fs /\ (Z.even (rOff g) = true \/ rSize g = 1)) gs.
Proof.
  intros fs off i SP. revert off i.
  assert (EV : forall o z, Z.even (up o z) = true \/ z = 1).
  { intros o z. unfold up. destruct (z =? 1) eqn:E1; [lia|]. left. rewrite Z.even_mul. reflexivity. }
  assert (UP : forall o z, o <= up o z).
  { intros o z. pose proof (up_ge o z). lia. }
  induction fs as [n t|n t fs IH]; intros off i; cbn [fields_at size_from number].
  - intros (_ & Ft) (f & tp & h1 & h2 & h3 & h4 & h5 & h6 & h7 & h8) O. exists [f]. split.
    { cbn [chain]. exists i, n. split; [reflexivity|]. split; [exact h1|exact h6]. }
    split; [reflexivity|]. split.
    { constructor; [intros g' []|constructor]. }
    constructor; [|constructor]. rewrite h3, h4. pose proof (UP off (sizeof E t)). split; [lia|]. split; [lia|apply EV].
  - intros (_ & Ft & Ff) (f & tp & j & h1 & h2 & h3 & h4 & h5 & h6 & h7 & h8 & h9) O.
    pose proof (UP off (sizeof E t)) as U. pose proof (SP t Ft) as P.
    destruct (IH _ _ Ff h9 ltac:(lia)) as (gs & C & Nu & Ap & Fa). exists (f :: gs).
    rewrite Forall_forall in Fa.
    assert (GE : forall fs off, fine_fields E fs -> off <= size_from E off fs).
    { clear - SP UP. induction fs as [n t|n t fs IH]; intros off F; cbn [size_from]; pose proof (UP off (sizeof E t)); pose proof (SP t ltac:(apply F)); [lia|].
      specialize (IH (up off (sizeof E t) + sizeof E t) ltac:(apply F)). lia. }
    split.
    { cbn [chain]. exists i, n. split; [reflexivity|]. split; [exact h1|]. rewrite h6. exact C. }
    split; [cbn [length]; lia|]. split.
    { constructor; [|exact Ap]. intros g' Ig b (B1 & B2). destruct (Fa g' Ig) as (a1 & _). rewrite h3, h4 in B1. lia. }
    constructor.
    { rewrite h3, h4. split; [lia|]. split; [apply GE; exact Ff|apply EV]. }
    apply Forall_forall. intros g Ig. destruct (Fa g Ig) as (a1 & a2 & a3). split; [lia|]. split; [exact a2|exact a3].
Qed.

Lemma record_fields E fs l b c p : describes E l -> fine E (TRecord fs) -> shaped E l b c p (TRecord fs) ->
  exists s r gs, nth_error l p = Some s /\ sParm s = PType r /\ tType r = 0x58 /\ chain l (Some (S p)) gs /\
    Z.of_nat (length gs) = tMax r /\ all_fields_apart gs /\
    Forall (fun g => 0 <= rOff g /\ rOff g + rSize g <= tSize r /\ (Z.even (rOff g) = true \/ rSize g = 1)) gs.
Proof.
  intros D (F & Z) (r & (_ & s & N & _ & P) & Sz & _ & T & M & Fa).
  assert (SP : forall t, fine E t -> 0 <= sizeof E t).
  { intros t Ft. apply (proj1 (sizeof_pos E l D) t Ft). }
  destruct (fields_chain E l p c fs 0 (S p) SP F Fa ltac:(lia)) as (gs & h1 & h2 & h3 & h4).
  exists s, r, gs. rewrite M, Sz. auto 10.
Qed.
