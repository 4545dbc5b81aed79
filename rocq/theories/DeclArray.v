(** The compiler reading a well-formed array type. *)

From Coq Require Import ZArith Bool List Lia ZifyBool.
From Verif Require Import Words ExprModel DeclModel DeclTypes DeclSpec DeclRun DeclRead DeclShape.
Import ListNotations.
Open Scope Z_scope.

(** Entries are changed outside of [P], names and kinds stay. *)
Definition retouch (P : nat -> Prop) (m m' : list sym) : Prop :=
  length m' = length m /\
  forall j s, nth_error m j = Some s -> exists s', nth_error m' j = Some s' /\ sName s' = sName s /\
    sKind s' = sKind s /\ (P j -> s' = s).

Lemma retouch_inv P m m' j s' : retouch P m m' -> nth_error m' j = Some s' ->
  exists s, nth_error m j = Some s /\ sName s' = sName s /\ sKind s' = sKind s /\ (P j -> s' = s).
Proof.
  intros (L & H) N. destruct (nth_error m j) as [s|] eqn:Ns.
  - destruct (H j s Ns) as (x & Nx & h). rewrite N in Nx. inversion Nx; subst x. exists s. auto.
  - exfalso. apply nth_error_None in Ns. assert (j < length m')%nat by (apply nth_error_Some; congruence). lia.
Qed.

Lemma retouch_refl P m : retouch P m m.
Proof. split; [reflexivity|]. intros j s N. exists s. auto. Qed.
Lemma retouch_trans P m1 m2 m3 : retouch P m1 m2 -> retouch P m2 m3 -> retouch P m1 m3.
Proof.
  intros (L1 & H1) (L2 & H2). split; [congruence|]. intros j s N.
  destruct (H1 j s N) as (x & Nx & a & b & c). destruct (H2 j x Nx) as (y & Ny & a' & b' & c').
  exists y. split; [exact Ny|]. split; [congruence|]. split; [congruence|]. intros p. rewrite c' by exact p. auto.
Qed.
Lemma retouch_weak (P Q : nat -> Prop) m m' : (forall j, Q j -> P j) -> retouch P m m' -> retouch Q m m'.
Proof.
  intros W (L & H). split; [exact L|]. intros j s N. destruct (H j s N) as (x & Nx & a & b & c).
  exists x. auto 6.
Qed.
Lemma retouch_upd (P : nat -> Prop) m p f : keeps f -> ~ P p -> retouch P m (updl p f m).
Proof.
  intros K NP. split; [apply length_updl|]. intros j s N. rewrite nth_updl, N. destruct (j =? p)%nat eqn:E; cbn.
  - eexists. split; [reflexivity|]. destruct (K s) as (a & b & _). split; [exact a|]. split; [exact b|].
    intros Pj. apply Nat.eqb_eq in E. subst. contradiction.
  - exists s. auto.
Qed.

Lemma retouch_grows own pos P m m1 m2 : grows own pos m m1 -> retouch P m1 m2 -> (forall j, (j < length m)%nat -> P j) -> grows own pos m m2.
Proof.
  intros G R H. pose proof G as (a1 & a2 & a3). split; [destruct R as (L & _); lia|]. split.
  - intros i s N. pose proof (grows_nth own pos m m1 i s G N) as N1. destruct R as (L & R).
    destruct (R i s N1) as (x & Nx & e1 & e2 & e3). exists x. split; [exact Nx|]. split; [exact e1|]. split; [exact e2|].
    intros _. apply e3, H. apply nth_error_Some. congruence.
  - intros i s Li N. destruct (retouch_inv P m1 m2 i s R N) as (x & Nx & e1 & e2 & _).
    pose proof (a3 i x Li Nx) as h. unfold fresh in *. rewrite e1, e2. exact h.
Qed.

Lemma retouch_evolves own pos (P : nat -> Prop) b c m m' : retouch P m m' -> (forall j, (b <= j < c)%nat -> P j) ->
  (forall j s, nth_error m j = Some s -> ~ hidden own s -> P j) -> evolves own pos b c m m'.
Proof.
  intros R H1 H2. pose proof R as (L & R2). split; [lia|]. split.
  - intros i s N. destruct (R2 i s N) as (x & Nx & e1 & e2 & e3). exists x. split; [exact Nx|]. split; [exact e1|].
    split; [exact e2|]. intros [h|h]; apply e3; [apply H1; exact h|eapply H2; eassumption].
  - intros i s Li N. exfalso. assert (i < length m')%nat by (apply nth_error_Some; congruence). lia.
Qed.

Section Arr.

Variable own : Z.
Variable pos : nat.
Variables (lev : nat) (stk np : Z) (fw : list fref) (er : list Z).
Notation st := (st lev stk np fw er).
Variable E : names.
Hypothesis HO : E own = EOther.

Definition reads (td : M nat) (t : ty) : Prop :=
  forall u v y r m, describes E m -> y <> tLBRACK ->
  exists p m' u', td (st u v (written t ++ RK y :: r) m) = Done p (st u' (sizeof E t) (RK y :: r) m') /\
    grows own pos m m' /\ shaped E m' (length m) (length m') p t.

Definition called (m : list sym) (p : nat) (name : Z) : Prop := exists s, nth_error m p = Some s /\ sName s = name.

Lemma posE_describes m : describes E m -> posE own E.
Proof using HO.
  intros D n z f En. destruct (described E m n z f D En) as (P & _). split; [exact P|congruence].
Qed.

Definition may (name : Z) (m : list sym) : Prop := name <= 0 \/ (name = own /\ length m = pos).
Lemma may_seen name m : may name m -> ~ seen own name.
Proof using. unfold may, seen. lia. Qed.

Lemma with_grows name m is : may name m -> grows own pos m (with_indexes name m is).
Proof using.
  intros NS. unfold may in NS. split; [rewrite length_with; lia|]. split.
  - intros i s N. exists s. split; [|auto]. rewrite nth_with.
    assert (i < length m)%nat by (apply nth_error_Some; congruence).
    replace (i <? length m)%nat with true by (symmetry; apply Nat.ltb_lt; assumption). exact N.
  - intros i s L N. rewrite nth_with in N. replace (i <? length m)%nat with false in N by (symmetry; apply Nat.ltb_ge; exact L).
    destruct (i =? length m)%nat eqn:Ei; [inversion N; unfold fresh; cbn; lia|].
    destruct (nth_error is _); [inversion N; left|discriminate]. cbn. lia.
Qed.

Lemma base_type_st u v l m p s t : nth_error m p = Some s -> sParm s = PType t -> tPar t = None ->
  base_type p (st u v l m) = Done p (st u v l m).
Proof using.
  intros N P Q. unfold base_type. rewrite bind_nsym. destruct (length m); cbn [base_loop];
    (erewrite bind_run by (eapply as_type_st; eassumption)); rewrite Q; reflexivity.
Qed.

Lemma array_st td k name lo hi more t u v y r m :
  reads td t -> fine E (TArray lo hi more t) -> describes E m -> y <> tLBRACK -> may name m -> (length more < k)%nat ->
  exists u' m', new_complex_type td k name (st u v (written (TArray lo hi more t) ++ RK y :: r) m) =
    Done (Some (length m)) (st u' (sizeof E t) (RK y :: r) m') /\
    grows own pos m m' /\ shaped E m' (length m) (length m') (length m) (TArray lo hi more t) /\ called m' (length m) name.
Proof using HO.
  intros R (Ft & El & Fi & Lm & Zp & Zt) D Y MY K. pose proof (may_seen _ _ MY) as NS.
  pose proof (posE_describes m D) as PE.
  set (is := (lo, hi) :: more) in *.
  set (W := with_indexes name m is).
  destruct (index_list_st own lev stk np fw er name m NS more (lo, hi) [] k tLBRACK u v
              (RK 0x98 :: written t ++ RK y :: r) Fi ltac:(cbn [length]; lia) K) as (u1 & IL).
  cbn [app] in IL. fold is W in IL.
  pose proof (with_grows name m is MY) as G0. fold W in G0.
  assert (D1 : describes E W) by (eapply describes_evolves; [exact HO|exact G0|exact D]).
  destruct (R u1 v y r W D1 Y) as (p & m1 & u2 & Rt & G1 & Sh).
  assert (D2 : describes E m1) by (eapply describes_evolves; [exact HO|exact G1|exact D1]).
  destruct (shaped_element E m1 _ _ p t D2 El Sh) as (s & rt & Ns & Ps & Ss & Qs).
  assert (LW : length W = (length m + S (length is))%nat) by apply length_with.
  pose proof (grows_len _ _ _ _ G1) as L1.
  assert (NW : forall j x, nth_error W j = Some x -> nth_error m1 j = Some x) by (intros; eapply grows_nth; eassumption).
  destruct (unit_loop_st lev stk np fw er (S (length m)) (length m1) is (S (length m)) (sizeof E t) (length m1) u2 (sizeof E t) (RK y :: r) m1)
    as (m2 & U1 & U2 & U3 & U4 & U5).
  { discriminate. }
  { intros j i Ni. assert (j < length is)%nat by (apply nth_error_Some; congruence).
    eexists _, _. split; [apply NW; unfold W; rewrite nth_with|].
    - replace (S (length m) + j <? length m)%nat with false by (symmetry; apply Nat.ltb_ge; lia).
      replace (S (length m) + j =? length m)%nat with false by (symmetry; apply Nat.eqb_neq; lia).
      replace (S (length m) + j - S (length m))%nat with j by lia. rewrite Ni. reflexivity.
    - split; [reflexivity|]. split; [reflexivity|]. split; [reflexivity|]. split; [reflexivity|]. cbn [tMin tMax tIdx]. split; [reflexivity|]. split; [reflexivity|].
      replace (S (length m) + j =? length m + length is)%nat with (S j =? length is)%nat.
      2: { apply eq_true_iff_eq. rewrite !Nat.eqb_eq. lia. }
      destruct (S j =? length is)%nat; [reflexivity|]. f_equal. lia. }
  { exact Fi. }
  { lia. }
  { exact Zp. }
  { exact Zt. }
  { lia. }
  { lia. }
  set (z := fold_left (fun z i => z * count i) is (sizeof E t)) in *.
  set (m3 := updl (length m) (ftype (fun t => set_par (Some p) (set_size z t))) m2).
  set (P := fun j => j <> length m /\ (j < S (length m) \/ S (length m) + length is <= j)%nat).
  assert (R2 : retouch P m1 m2).
  { split; [exact U2|]. intros j x N. destruct (U4 j x N) as (x' & a & b & c). exists x'. split; [exact a|].
    split; [exact b|]. split; [exact c|]. intros (_ & h). rewrite U3 in a by exact h. congruence. }
  assert (R3 : retouch P m1 m3).
  { eapply retouch_trans; [exact R2|]. apply retouch_upd; [apply keeps_ftype|]. unfold P. intuition. }
  assert (G2 : grows own pos m m1) by (eapply grows_trans; eassumption).
  assert (NA : nth_error m1 (length m) = Some (e_array name (length is) (Some (S (length m))))).
  { apply NW. unfold W. rewrite nth_with, Nat.ltb_irrefl, Nat.eqb_refl. reflexivity. }
  assert (NA2 : nth_error m2 (length m) = Some (e_array name (length is) (Some (S (length m))))).
  { rewrite U3 by lia. exact NA. }
  assert (V3 : evolves own pos (length W) (length m1) m1 m3).
  { eapply retouch_evolves; [exact R3| |].
    - intros j Hj. unfold P. lia.
    - intros j x N Hx. unfold P. destruct (Nat.lt_ge_cases j (length m)); [lia|].
      exfalso. apply Hx. eapply grows_hidden; [exact G2| |exact N]. assumption. }
  exists u2, m3. split.
  { cbn [written]. unfold new_complex_type. cbn [app]. sx. unfold array_type. sx. sx. sx.
    erewrite bind_run by (apply (add_type_st own); [exact I|exact NS|lia]). cbv beta.
    rewrite <- !app_assoc. cbn [app].
    change (m ++ [mkS name sTYPE _]) with (with_indexes name m []).
    erewrite bind_run.
    2: { unfold lastof in IL. exact IL. }
    sx. unfold array_base_type. sx. sx. sx. erewrite bind_run by exact Rt. cbv beta.
    sx. erewrite bind_run by (eapply base_type_st; eassumption). cbv beta.
    sx. erewrite bind_run by (eapply as_type_st; eassumption). cbv beta.
    sx. erewrite bind_run by (eapply get_type_st; [exact NA|reflexivity]). cbv beta. cbn [tIdx].
    sx. sx. sx. rewrite Ss. erewrite bind_run by exact U1. cbv beta. sx. reflexivity. }
  split.
  { eapply retouch_grows; [exact G2|exact R3|]. intros j Hj. unfold P. lia. }
  assert (L3 : length m3 = length m1) by (destruct R3; assumption).
  assert (N3 : nth_error m3 (length m) = Some (mkS name sTYPE (PType (mkTy sARRAY 0 (Z.of_nat (length is)) z 0 0 (Some p) (Some (S (length m))))))).
  { unfold m3. rewrite nth_updl, Nat.eqb_refl, NA2. reflexivity. }
  split; [|eexists; split; [exact N3|reflexivity]].
  cbn [shaped]. eexists. split.
  { split; [|eexists; split; [exact N3|split; reflexivity]]. lia. }
  cbn [tSize tType tDim tIdx tPar]. split; [reflexivity|]. split; [reflexivity|].
  split; [unfold is; reflexivity|]. split.
  { rewrite L3. fold is. apply (indexes_widen m3 (S (length m)) (length m1)); [lia|lia|].
    eapply indexes_evolves; [|apply Nat.le_refl|apply Nat.le_refl|exact U5].
    unfold m3. eapply (evolves_upd own pos); [apply keeps_ftype|exact NA2|left; exact NS|]. lia. }
  exists p. split; [reflexivity|].
  destruct (shaped_widen E) as (SW & _). rewrite L3. eapply SW; [| |].
  3: { destruct (shaped_evolves own pos E PE) as (SE & _). eapply SE; [exact V3|exact Ft| | |exact Sh]; lia. }
  - lia.
  - lia.
Qed.

End Arr.
