(** Enumerated types and subranges: what is accepted is well-formed. *)

From Coq Require Import ZArith Bool List Lia ZifyBool.
From Verif Require Import Words ExprModel DeclModel DeclTypes DeclSpec DeclRun DeclRead RangeSpec RangeProofs.
Import ListNotations.
Open Scope Z_scope.

(** The next step of [H] *)
Ltac cs H a d1 E :=
  let q := fresh "q" in
  apply clean in H; [|assumption || congruence|mono|intros; mono]; destruct H as (a & d1 & E & ? & H & ?).
(** a step that reads a variable *)
Ltac cv H := rewrite bind_token in H || rewrite bind_uint in H || rewrite bind_ptr in H || rewrite bind_str in H.

Lemma value_inv d v d' : subrange_value d = Done v d' -> derrs d' = derrs d -> d' = d /\ gUInt d <= 65535 /\ v = s16 (gUInt d).
Proof.
  unfold subrange_value. intros H D. cv H. destruct (65535 <? gUInt d) eqn:E.
  - cs H a d1 E1. destruct a. exfalso. eapply no_error; eassumption.
  - inversion H; subst. split; [reflexivity|]. split; [lia|reflexivity].
Qed.

Lemma signed_inv l d v d' : cur l d -> Forall fit_word l -> Forall fit_sym (syms d) ->
  subrange_signed d = Done v d' -> derrs d' = derrs d ->
  gTok d = tINT_CONST \/ gTok d = tMINUS \/ gTok d = tPLUS ->
  exists w z, v = Some z /\ l = w ++ rest d' /\ bound (syms d) w z /\ same d d' /\ syms d' = syms d.
Proof.
  intros (C1 & C2 & C3 & (u & C4) & C5) FW FS H D T. unfold subrange_signed in H. cv H.
  destruct (gTok d =? tINT_CONST) eqn:E1.
  - cs H a d1 E2. apply value_inv in E2; [|assumption]. destruct E2 as (-> & Le & ->). inversion H; subst v d'.
    destruct (tok_const l (syms d) FW FS 0x02 u ltac:(rewrite <- C1; unfold tINT_CONST in *; lia) ltac:(cbn; auto)) as (w & z & e & K & V & Vr0 & Vr1 & _); specialize (Vr1 eq_refl); assert (Vr : 0 <= z <= 32767) by lia.
    exists [w], z. rewrite C4, V in *. rewrite s16_id by lia. split; [reflexivity|]. rewrite C5. split; [exact e|].
    split; [constructor; [exact K|exact Vr]|]. split; [apply same_refl|reflexivity].
  - cs H a d1 E2. destruct a. destruct (get_cur _ _ E2) as (Cu & Sm & Sy & _ & _).
    destruct Cu as (K1 & K2 & K3 & (u1 & K4) & K5). cv H. destruct (gTok d1 =? tINT_CONST) eqn:E3.
    + cs H a d2 E4. apply value_inv in E4; [|assumption]. destruct E4 as (-> & Le & ->). inversion H; subst v d'.
      assert (FW' : Forall fit_word (rest d)) by (rewrite C5; destruct l; [constructor|inversion FW; assumption]).
      destruct (tok_const (rest d) (syms d1) FW' ltac:(rewrite Sy; exact FS) 0x02 u1 ltac:(rewrite <- K1; unfold tINT_CONST in *; lia) ltac:(cbn; auto))
        as (w & z & e & K & V & Vr0 & Vr1 & _); specialize (Vr1 eq_refl); assert (Vr : 0 <= z <= 32767) by lia.
      assert (L : l = RK (gTok d) :: rest d).
      { rewrite C5. apply (tok_special l (syms d) FW FS); [symmetry; exact C1|]. destruct T as [T|[T|T]]; rewrite T; cbn; unfold tINT_CONST in *; lia || auto 12. }
      rewrite K4, V in *. rewrite Sy in *. rewrite (s16_id z) by lia.
      exists [RK (gTok d); w]. eexists. split; [reflexivity|]. rewrite K5. split; [rewrite L at 1; rewrite e; reflexivity|].
      split; [|split; [exact Sm|reflexivity]].
      destruct T as [T|[T|T]]; [lia| |]; rewrite T; [|cbn; apply (b_plus (syms d) w z K Vr)].
      rewrite Z.eqb_refl, s16_id by lia. apply (b_minus (syms d) w z K). lia.
    + cs H a d2 E4. destruct a. exfalso. eapply no_error; eassumption.
Qed.

Lemma expect_inv l d t e d' : cur l d -> Forall fit_word l -> Forall fit_sym (syms d) -> expect t e d = Done tt d' ->
  derrs d' = derrs d -> In t [0x0b; 0x29] ->
  l = RK t :: rest d /\ cur (rest d) d' /\ same d d' /\ syms d' = syms d /\ d' = next_from 0 d.
Proof.
  intros (C1 & C2 & C3 & _ & C5) FW FS H D I. unfold expect in H. cv H. destruct (gTok d =? t) eqn:E.
  - destruct (get_cur _ _ H) as (Cu & Sm & Sy & _ & N). split; [|auto].
    rewrite C5. apply (tok_special l (syms d) FW FS); [rewrite <- C1; lia|]. cbn in *. lia.
  - exfalso. eapply no_error; eassumption.
Qed.

(** ** Enumerated types *)

Lemma unused_app l s n : unused (l ++ [s]) n -> unused l n /\ (sName s = n -> sKind s = 0x59).
Proof.
  intros U. split.
  - intros j s' N. apply (U j s'). rewrite nth_error_app1; [exact N|apply nth_error_Some; congruence].
  - apply (U (length l) s). rewrite nth_error_app2, Nat.sub_diag by lia. reflexivity.
Qed.

Lemma commas_cons n ns : ns <> [] -> commas (n :: ns) = RId n :: RK 0x2c :: commas ns.
Proof. intros H. destruct ns; [congruence|reflexivity]. Qed.

Lemma enum_inv tp : forall k i d m d', Forall fit_word (rest d) -> Forall fit_sym (syms d) ->
  0 <= i -> i + Z.of_nat (length (rest d)) <= 2147483648 ->
  enum_loop k tp i d = Done m d' -> derrs d' = derrs d ->
  exists ns r, rest d = commas ns ++ r /\ ns <> [] /\ NoDup ns /\ (forall n, In n ns -> unused (syms d) n) /\
    m = i + Z.of_nat (length ns) /\ syms d' = syms d ++ numbered tp i ns /\ same d d' /\ cur r d' /\
    (exists d1, d' = next_from 0 d1 /\ rest d1 = r /\ syms d1 = syms d') /\ Forall fit_sym (syms d').
Proof.
  induction k as [|k IH]; intros i d m d' FW FS I0 I1 H D; [discriminate|]. cbn [enum_loop] in H.
  cs H a d1 E1. destruct a. destruct (get_cur _ _ E1) as (Cu & Sm & Sy & _ & _).
  destruct Cu as (K1 & K2 & K3 & (u1 & K4) & K5). cv H.
  destruct (gTok d1 =? tIDENT) eqn:E2.
  2: { cs H a d2 E3. cs E3 b d3 E4. destruct b. exfalso. eapply no_error; eassumption. }
  cs H a d2 E3. cv E3. cs E3 b d3 E4. cs E3 c d4 E5. destruct c. inversion E3; subst a d4. clear E3.
  destruct (tok_name (rest d) (syms d1) FW ltac:(rewrite Sy; exact FS) ltac:(rewrite <- K1; unfold tIDENT in *; lia)) as (n & L & U & St & Pn).
  rewrite K3, St in E4. unfold add_const, add_sym in E4. inversion E4; subst b d3. clear E4.
  destruct (get_cur _ _ E5) as (Cu2 & Sm2 & Sy2 & _ & N2). cbn [rest syms set_syms] in *.
  rewrite K5 in *. rewrite Sy in *.
  set (e := mkS n sSCALAR_OBJECT (PConst i (Some tp))) in *.
  assert (FW2 : Forall fit_word (tl (rest d))) by (rewrite L in FW; inversion FW; assumption).
  assert (FS2 : Forall fit_sym (syms d2)).
  { rewrite Sy2. apply Forall_app. split; [exact FS|]. constructor; [|constructor]. split; cbn.
    - unfold sSCALAR_OBJECT. lia.
    - rewrite L in I1. cbn [length] in I1. unfold sSCALAR_OBJECT. lia. }
  assert (Smm : same d d2) by (eapply same_trans; [exact Sm|]; revert Sm2; unfold same; cbn; auto).
  cv H. destruct (gTok d2 =? tCOMMA) eqn:E6.
  - pose proof Cu2 as (T1 & _ & _ & _ & T5).
    assert (L2 : tl (rest d) = RK 0x2c :: rest d2).
    { rewrite T5. apply (tok_special _ (syms d2) FW2 FS2); [rewrite <- T1; unfold tCOMMA in *; lia|cbn; lia]. }
    destruct (IH (i + 1) d2 m d' ltac:(rewrite L2 in FW2; inversion FW2; assumption) FS2 ltac:(lia)
      ltac:(rewrite L, L2 in I1; cbn [length] in I1; lia) H ltac:(assumption))
      as (ns & r & R & NE & ND & Un & Hm & Hs & Hsm & Hc & Hn & Hf).
    exists (n :: ns), r. split.
    { rewrite commas_cons by exact NE. rewrite L, L2, R. reflexivity. }
    split; [discriminate|]. split.
    { constructor; [|exact ND]. intros In0. pose proof (Un n In0) as In'. rewrite Sy2 in In'. apply unused_app in In'.
      destruct In' as (_ & In'). specialize (In' eq_refl). cbn in In'. unfold sSCALAR_OBJECT in In'. lia. }
    split.
    { intros x [<-|Ix]; [exact U|]. specialize (Un x Ix).   rewrite Sy2 in Un. exact (proj1 (unused_app _ _ _ Un)). }
    split; [cbn [length]; lia|]. split; [rewrite Hs, Sy2, <- app_assoc; reflexivity|].
    split; [eapply same_trans; eassumption|]. auto.
  - inversion H; subst m d'. exists [n], (tl (rest d)). split; [exact L|]. split; [discriminate|].
    split; [constructor; [intros []|constructor]|]. split; [intros x [<-|[]]; exact U|]. split; [cbn; lia|].
    split; [exact Sy2|]. split; [exact Smm|]. split; [exact Cu2|]. split; [|exact FS2].
    eexists. split; [exact N2|]. cbn. rewrite K5. split; [reflexivity|]. rewrite Sy2. reflexivity.
Qed.

(** ** All of them *)

Lemma latest_app l e n p s : latest (l ++ [e]) n p s -> sKind s <> sKind e -> latest l n p s.
Proof.
  intros (N & Ns & Nk & La) K.
  assert (P : (p < length l)%nat).
  { destruct (Nat.lt_ge_cases p (length l)) as [P|P]; [exact P|]. exfalso. rewrite nth_error_app2 in N by exact P.
    destruct (p - length l)%nat as [|j]; [cbn in N; inversion N; congruence|destruct j; discriminate]. }
  rewrite nth_error_app1 in N by exact P. split; [exact N|]. split; [exact Ns|]. split; [exact Nk|].
  intros j s' Hj Nj. apply (La j s' Hj). rewrite nth_error_app1; [exact Nj|apply nth_error_Some; congruence].
Qed.
Lemma constant_app l e w k v : constant (l ++ [e]) w k v -> k <> sKind e -> constant l w k v.
Proof.
  intros C K. destruct C as [v|v|n p s k v q La Ks Ps]; try constructor.
  eapply c_name; [|exact Ks|exact Ps]. eapply latest_app; [exact La|congruence].
Qed.
Lemma bound_app l e w v : bound (l ++ [e]) w v -> sKind e = 0x44 -> bound l w v.
Proof.
  intros B K. destruct B as [w v C R|w v C R|w v C R]; constructor; try exact R; eapply constant_app; try exact C; rewrite K; discriminate.
Qed.

Definition at_type (name : Z) (t : tyrec) : sym := mkS name 0x44 (PType t).

Lemma add_type_inv name ty size q d p d1 : add_type name ty size q d = Done p d1 -> 0 <= size < 65536 ->
  p = length (syms d) /\ d1 = set_syms (syms d ++ [at_type name (mkTy ty 0 0 size 0 0 q None)]) d.
Proof.
  unfold add_type, add_sym. intros E S. inversion E; subst. split; [reflexivity|]. unfold u16. rewrite Z.mod_small by lia. reflexivity.
Qed.
Lemma upd_type_inv l name t g d d1 : syms d = l ++ [at_type name t] -> upd_type (length l) g d = Done tt d1 ->
  d1 = set_syms (l ++ [at_type name (g t)]) d.
Proof.
  intros E H. unfold upd_type, upd in H. inversion H. f_equal. rewrite E. exact (updl_last l (at_type name t) (ftype g)).
Qed.

Lemma fit_type name t : fit_sym (at_type name t).
Proof. split; cbn; lia. Qed.
Lemma Forall_tl {A} (P : A -> Prop) l : Forall P l -> Forall P (tl l).
Proof. intros H. destruct l; [constructor|inversion H; assumption]. Qed.

Lemma accepted k name d p d' :
  new_simple_type k name (next_from 0 d) = Done (Some p) d' -> derrs d' = derrs d ->
  Forall fit_word (rest d) -> Forall fit_sym (syms d) -> Z.of_nat (length (rest d)) < 2147483648 ->
  exists w r t new, ordinal (syms d) name w t new /\ p = length (syms d) /\ read d w r (mkS name 0x44 (PType t) :: new) d'.
Proof.
  intros H D FW FS LR.
  destruct (get_cur d (next_from 0 d) eq_refl) as (Cu & Sm & Sy & De & _).
  set (l := rest d) in *. set (m := syms d) in *. set (d0 := next_from 0 d) in *.
  assert (D0 : derrs d' = derrs d0) by congruence. clearbody d0.
  pose proof Cu as (C1 & C2 & C3 & (u & C4) & C5). rewrite Sy in *.
  unfold new_simple_type in H. cv H.
  destruct (gTok d0 =? tLPAREN) eqn:T1.
  { (* enumerated *)
    assert (L : l = RK 0x28 :: rest d0).
    { rewrite C5. apply (tok_special l m FW FS); [rewrite <- C1; unfold tLPAREN in *; lia|cbn; lia]. }
    cs H q d1 E1. apply add_type_inv in E1; [|unfold sINT_SIZE; lia]. destruct E1 as (-> & ->). rewrite Sy in *.
    set (t0 := mkTy sSCALAR 0 0 sINT_SIZE 0 0 None None) in *.
    cs H n d2 E2.
    apply enum_inv in E2; cycle 1.
    { cbn. rewrite L in FW. inversion FW; assumption. }
    { cbn. apply Forall_app. split; [exact FS|constructor; [apply fit_type|constructor]]. }
    { lia. }
    { cbn. rewrite L in LR. cbn [length] in LR. lia. }
    { assumption. }
    destruct E2 as (ns & r & R & NE & ND & Un & Hm & Hs & Hsm & Hc & (dn & N1 & N2 & N3) & Hf).
    cbn [rest syms set_syms] in R, Un, Hs.
    cs H a d3 E3. destruct a.
    assert (Sy3 : d3 = set_syms (m ++ at_type name (set_max (n - 1) t0) :: numbered (length m) 0 ns) d2).
    { unfold upd_type, upd in E3. inversion E3. f_equal. rewrite Hs, <- app_assoc. cbn [app].
      change (updl (length m) (ftype (set_max (n - 1))) (m ++ at_type name t0 :: numbered (length m) 0 ns) = m ++ at_type name (set_max (n - 1) t0) :: numbered (length m) 0 ns).
      unfold updl. rewrite firstn_app, firstn_all, Nat.sub_diag. cbn [firstn]. rewrite app_nil_r. f_equal.
      rewrite skipn_app, skipn_all, Nat.sub_diag. reflexivity. }
    subst d3. cs H a d4 E4. destruct a. inversion H; subst p d4. clear H.
    destruct Hc as (J1 & J2 & J3 & J4 & J5).
    unfold expect in E4. cv E4. cbn [gTok set_syms] in E4. destruct (gTok d2 =? tRPAREN) eqn:T2.
    2: { exfalso. eapply no_error; eassumption. }
    assert (FWr : Forall fit_word r).
    { rewrite L, R in FW. inversion FW as [|? ? _ FW2]. apply Forall_app in FW2. apply FW2. }
    assert (Lr : r = RK 0x29 :: tl r).
    { apply (tok_special r (syms d2) FWr Hf); [rewrite <- J1; unfold tRPAREN in *; lia|cbn; lia]. }
    destruct (get_cur _ _ E4) as (_ & Sm4 & Sy4 & _ & N4). cbn [syms rest set_syms] in *.
    exists (RK 0x28 :: commas ns ++ [RK 0x29]), (tl r). eexists _, (numbered (length m) 0 ns).
    split; [apply o_enum|].
    - exact NE.
    - exact ND.
    - intros x Ix. specialize (Un x Ix). apply unused_app in Un. destruct Un as (U1 & U2). split; [exact U1|].
      intros ->. specialize (U2 eq_refl). cbn in U2. lia.
    - split; [reflexivity|]. unfold read. fold l m. split.
      { rewrite L, R. cbn [app]. f_equal. rewrite <- app_assoc. f_equal. exact Lr. }
      split; [rewrite Sy4; unfold at_type, set_max, t0; cbn; rewrite Hm; reflexivity|]. split; [congruence|].
      assert (SS : same d d').
      { eapply same_trans; [exact Sm|]. eapply same_trans; [|exact Sm4]. revert Hsm. unfold same. cbn. tauto. }
      destruct SS as (s1 & s2 & s3 & s4 & s5). do 5 (split; [assumption|]).
      eexists. split; [exact N4|]. cbn [rest syms set_syms]. split; [congruence|]. congruence. }
  destruct ((gTok d0 =? tINT_CONST) || (gTok d0 =? tMINUS) || (gTok d0 =? tPLUS)) eqn:T2.
  { (* integers *)
    cs H v d1 E1. apply (signed_inv l) in E1; [|exact Cu|exact FW|rewrite Sy; exact FS|assumption|lia].
    destruct E1 as (w1 & lo & -> & L & B1 & Sm1 & Sy1). rewrite Sy in *.
    cs H q d2 E2. apply add_type_inv in E2; [|unfold sINT_SIZE; lia]. destruct E2 as (-> & ->). rewrite Sy1 in *.
    cs H a d3 E3. destruct a. eapply upd_type_inv in E3; [|reflexivity]. cbn [syms set_syms] in *. subst d3.
    cs H a d4 E4. destruct a. destruct (get_cur _ _ E4) as (Cu4 & Sm4 & Sy4 & _ & _). cbn [syms rest set_syms] in *.
    set (t1 := set_max _ _) in *.
    assert (FW1 : Forall fit_word (rest d1)) by (rewrite L in FW; apply Forall_app in FW; apply FW).
    assert (FS4 : Forall fit_sym (syms d4)) by (rewrite Sy4; apply Forall_app; split; [exact FS|constructor; [apply fit_type|constructor]]).
    cs H a d5 E5. destruct a. apply (expect_inv (rest d1)) in E5; [|assumption..|cbn; auto].
    destruct E5 as (L5 & Cu5 & Sm5 & Sy5 & _).
    assert (FW4 : Forall fit_word (rest d4)) by (rewrite L5 in FW1; inversion FW1; assumption).
    cv H. destruct ((gTok d5 =? tINT_CONST) || (gTok d5 =? tMINUS) || (gTok d5 =? tPLUS)) eqn:T3.
    2: { cs H hi d6 E6. cs E6 a d7 E7. destruct a. exfalso. eapply no_error; eassumption. }
    cs H hi d6 E6. cs E6 v d7 E7. apply (signed_inv (rest d4)) in E7; [|exact Cu5|exact FW4|rewrite Sy5; exact FS4|assumption|lia].
    destruct E7 as (w2 & z & -> & L6 & B2 & Sm6 & Sy6). inversion E6; subst z d7. clear E6.
    rewrite Sy5 in *. rewrite Sy4 in *. apply bound_app in B2; [|reflexivity].
    destruct (hi <? lo) eqn:T4.
    { cs H a d7 E7. destruct a. exfalso. eapply no_error; eassumption. }
    cs H a d7 E7. destruct a. eapply upd_type_inv in E7; [|exact Sy6]. subst d7.
    cs H a d8 E8. destruct a. inversion H; subst p d8. clear H.
    destruct (get_cur _ _ E8) as (_ & Sm8 & Sy8 & _ & N8). cbn [syms rest set_syms] in *.
    exists (w1 ++ RK 0x0b :: w2), (rest d6). eexists _, [].
    split; [apply o_int; [exact B1|exact B2|lia]|]. split; [reflexivity|]. unfold read. fold l m. split.
    { rewrite L, L5, L6, <- app_assoc. reflexivity. }
    split; [rewrite Sy8; reflexivity|]. split; [congruence|].
    assert (SS : same d d').
    { eapply same_trans; [exact Sm|]. eapply same_trans; [exact Sm1|]. eapply same_trans; [|exact Sm8].
      revert Sm4 Sm5 Sm6. unfold same. cbn. intuition congruence. }
    destruct SS as (s1 & s2 & s3 & s4 & s5). do 5 (split; [assumption|]).
    eexists. split; [exact N8|]. cbn [rest syms set_syms]. split; congruence. }
  destruct (gTok d0 =? tCHAR_CONST) eqn:T3.
  { (* characters *)
    destruct (tok_const l m FW FS 0x03 u ltac:(rewrite <- C1; unfold tCHAR_CONST in *; lia) ltac:(cbn; auto)) as (w1 & lo & L & K1 & V1 & R1 & _ & _).
    cv H. rewrite C4, V1 in H.
    cs H q d2 E2. apply add_type_inv in E2; [|unfold sCHAR_SIZE; lia]. destruct E2 as (-> & ->). rewrite Sy in *.
    cs H a d3 E3. destruct a. eapply upd_type_inv in E3; [|reflexivity]. cbn [syms set_syms] in *. subst d3.
    cs H a d4 E4. destruct a. destruct (get_cur _ _ E4) as (Cu4 & Sm4 & Sy4 & _ & _). cbn [syms rest set_syms] in *.
    set (t1 := set_max _ _) in *. rewrite C5 in *.
    assert (FW1 : Forall fit_word (tl l)) by (apply Forall_tl; exact FW).
    assert (FS4 : Forall fit_sym (syms d4)) by (rewrite Sy4; apply Forall_app; split; [exact FS|constructor; [apply fit_type|constructor]]).
    cs H a d5 E5. destruct a. apply (expect_inv (tl l)) in E5; [|assumption..|cbn; auto].
    destruct E5 as (L5 & Cu5 & Sm5 & Sy5 & _).
    assert (FW4 : Forall fit_word (rest d4)) by (rewrite L5 in FW1; inversion FW1; assumption).
    cv H. cv H. destruct (negb (gTok d5 =? tCHAR_CONST) || (gUInt d5 <? lo)) eqn:T4.
    { cs H a d7 E7. destruct a. exfalso. eapply no_error; eassumption. }
    cs H a d7 E7. destruct a. cs E7 b d8 E8. destruct b. pose proof Cu5 as (G1 & G2 & G3 & (u5 & G4) & G5).
    rewrite Sy5, Sy4 in *. eapply upd_type_inv in E8; [|exact Sy5]. subst d8.
    destruct (tok_const (rest d4) _ FW4 FS4 0x03 u5 ltac:(rewrite <- G1; unfold tCHAR_CONST in *; lia) ltac:(cbn; auto)) as (w2 & hi & L6 & K2 & V2 & R2 & _ & _).
    rewrite G4, V2 in *. apply constant_app in K2; [|discriminate].
    inversion H; subst p d7. clear H.
    destruct (get_cur _ _ E7) as (_ & Sm8 & Sy8 & _ & N8). cbn [syms rest set_syms] in *.
    exists [w1; RK 0x0b; w2], (rest d5). eexists _, [].
    split; [apply o_char; [exact K1|exact K2|lia]|]. split; [reflexivity|]. unfold read. fold l m. split.
    { rewrite L, L5, L6, G5. reflexivity. }
    split; [rewrite Sy8; reflexivity|]. split; [congruence|].
    assert (SS : same d d').
    { eapply same_trans; [exact Sm|]. eapply same_trans; [|exact Sm8].
      revert Sm4 Sm5. unfold same. cbn. intuition congruence. }
    destruct SS as (s1 & s2 & s3 & s4 & s5). do 5 (split; [assumption|]).
    eexists. split; [exact N8|]. cbn [rest syms set_syms]. split; congruence. }
  destruct (gTok d0 =? sSCALAR_OBJECT) eqn:T4; [|discriminate].
  (* a constant of an enumerated type *)
  destruct (tok_const l m FW FS 0x54 u ltac:(rewrite <- C1; unfold sSCALAR_OBJECT in *; lia) ltac:(cbn; auto)) as (w1 & lo & L & K1 & V1 & R1 & _ & X1).
  destruct (X1 eq_refl) as (n & p1 & s & q1 & -> & La & Pt & Ks & Ps).
  cv H. cv H. rewrite C4, V1, C2, Pt in H.
  cs H q d2 E2. apply add_type_inv in E2; [|unfold sINT_SIZE; lia]. destruct E2 as (-> & ->). rewrite Sy in *.
  cs H a d3 E3. destruct a. eapply upd_type_inv in E3; [|reflexivity]. cbn [syms set_syms] in *. subst d3.
  cs H a d4 E4. destruct a. destruct (get_cur _ _ E4) as (Cu4 & Sm4 & Sy4 & _ & _). cbn [syms rest set_syms] in *.
  set (t1 := set_max _ _) in *. rewrite C5 in *.
  assert (FW1 : Forall fit_word (tl l)) by (apply Forall_tl; exact FW).
  assert (FS4 : Forall fit_sym (syms d4)) by (rewrite Sy4; apply Forall_app; split; [exact FS|constructor; [apply fit_type|constructor]]).
  cs H a d5 E5. destruct a. apply (expect_inv (tl l)) in E5; [|assumption..|cbn; auto].
  destruct E5 as (L5 & Cu5 & Sm5 & Sy5 & _).
  assert (FW4 : Forall fit_word (rest d4)) by (rewrite L5 in FW1; inversion FW1; assumption).
  cv H. cv H. cv H. destruct (negb (gTok d5 =? sSCALAR_OBJECT) || _ || _) eqn:T5.
  { cs H a d7 E7. destruct a. exfalso. eapply no_error; eassumption. }
  cs H a d7 E7. destruct a. cs E7 b d8 E8. destruct b. pose proof Cu5 as (G1 & G2 & G3 & (u5 & G4) & G5).
  rewrite Sy5, Sy4 in *. eapply upd_type_inv in E8; [|exact Sy5]. subst d8.
  destruct (tok_const (rest d4) _ FW4 FS4 0x54 u5 ltac:(rewrite <- G1; unfold sSCALAR_OBJECT in *; lia) ltac:(cbn; auto)) as (w2 & hi & L6 & K2 & V2 & R2 & _ & X2).
  destruct (X2 eq_refl) as (n2 & p2 & s2 & q2 & -> & La2 & Pt2 & Ks2 & Ps2).
  apply latest_app in La2; [|rewrite Ks2; discriminate].
  rewrite G2, Pt2 in T5. assert (p1 = p2) by lia. subst p2.
  assert (s2 = s) as -> by (destruct La as (N1 & _), La2 as (N2 & _); congruence).
  assert (n2 = n) as -> by (destruct La as (_ & N1 & _), La2 as (_ & N2 & _); congruence).
  assert (hi = lo) as -> by congruence.
  rewrite G4, V2 in *. rewrite s32_id in * by lia.
  inversion H; subst p d7. clear H.
  destruct (get_cur _ _ E7) as (_ & Sm8 & Sy8 & _ & N8). cbn [syms rest set_syms] in *.
  exists [RId n; RK 0x0b; RId n], (rest d5). eexists _, [].
  split; [eapply o_one; eassumption|]. split; [reflexivity|]. unfold read. fold l m. split.
  { rewrite L, L5, L6, G5. reflexivity. }
  split; [rewrite Sy8; unfold t1; cbn; rewrite ?s32_id by lia; reflexivity|]. split; [congruence|].
  assert (SS : same d d').
  { eapply same_trans; [exact Sm|]. eapply same_trans; [|exact Sm8].
    revert Sm4 Sm5. unfold same. cbn. intuition congruence. }
  destruct SS as (s1 & s3 & s4 & s5 & s6). do 5 (split; [assumption|]).
  eexists. split; [exact N8|]. cbn [rest syms set_syms]. split; congruence.
Qed.
