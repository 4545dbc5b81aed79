(** The compiler reading a well-formed type: steps. *)

From Coq Require Import ZArith Bool List Lia ZifyBool.
From Verif Require Import Words ExprModel DeclModel DeclTypes DeclSpec.
Import ListNotations.
Open Scope Z_scope.

Definition updl (p : nat) (f : sym -> sym) (l : list sym) : list sym :=
  firstn p l ++ match skipn p l with [] => [] | s :: r => f s :: r end.

Lemma nth_updl f p l i :
  nth_error (updl p f l) i = if (i =? p)%nat then option_map f (nth_error l i) else nth_error l i.
Proof. apply nth_upd. Qed.

Lemma length_updl f : forall p l, length (updl p f l) = length l.
Proof.
  unfold updl. intros p l. rewrite <- (firstn_skipn p l) at 3. rewrite !app_length. f_equal.
  destruct (skipn p l); reflexivity.
Qed.

Lemma bind_run {A B} (m : M A) (k : A -> M B) d a d1 : m d = Done a d1 -> bind m k d = k a d1.
Proof. intros E. unfold bind. rewrite E. reflexivity. Qed.

Scheme ty_mut := Induction for ty Sort Prop
  with fields_mut := Induction for fields Sort Prop.
Combined Scheme ty_fields_ind from ty_mut, fields_mut.

Section Own.

(** The name of the type being defined, if it has one *)
Variable own : Z.
(** and its place in the table *)
Variable pos : nat.

(** Names nobody looks up *)
Definition seen (n : Z) : Prop := 0 < n /\ n <> own.
Definition hidden (s : sym) : Prop := ~ seen (sName s) \/ sKind s = 0x59.
Definition fresh (i : nat) (s : sym) : Prop := sName s <= 0 \/ sKind s = 0x59 \/ (sName s = own /\ i = pos).
Lemma fresh_hidden i s : fresh i s -> hidden s.
Proof. unfold fresh, hidden, seen. lia. Qed.
Definition posh (l : list raw) : Prop := match l with RId n :: _ => seen n | _ => True end.

(** Changes that lookup does not notice *)
Definition keeps (f : sym -> sym) : Prop :=
  forall s, sName (f s) = sName s /\ sKind (f s) = sKind s /\
            forall v q, sParm (f s) = PConst v q <-> sParm s = PConst v q.

Definition ftype (g : tyrec -> tyrec) (s : sym) : sym :=
  match sParm s with PType t => mkS (sName s) (sKind s) (PType (g t)) | _ => s end.
Definition ffield (g : fldrec -> fldrec) (s : sym) : sym :=
  match sParm s with PField x => mkS (sName s) (sKind s) (PField (g x)) | _ => s end.

Lemma keeps_ftype g : keeps (ftype g).
Proof.
  intros s. unfold ftype. destruct (sParm s) eqn:E; cbn; repeat split; auto; intros; try congruence.
Qed.
Lemma keeps_ffield g : keeps (ffield g).
Proof.
  intros s. unfold ffield. destruct (sParm s) eqn:E; cbn; repeat split; auto; intros; try congruence.
Qed.

(** ** Lookup *)

Lemma find_none n : forall l k acc,
  (forall j s, nth_error l j = Some s -> sName s = n -> sKind s = 0x59) -> find_sym n 0 k l acc = acc.
Proof.
  induction l as [|s l IH]; intros k acc H; cbn [find_sym]; [reflexivity|].
  rewrite IH.
  - pose proof (H 0%nat s eq_refl) as H0. unfold sRECORD_OBJECT. cbn [Nat.leb andb].
    destruct (sName s =? n) eqn:E1; [|reflexivity]. rewrite H0 by lia. reflexivity.
  - intros j s' Hj. exact (H (S j) s' Hj).
Qed.

Lemma find_latest n : forall l k acc p s, latest l n p s -> find_sym n 0 k l acc = Some (k + p)%nat.
Proof.
  induction l as [|s0 l IH]; intros k acc p s (N & En & Ek & La); [destruct p; discriminate|].
  cbn [find_sym]. destruct p as [|p].
  - cbn in N. inversion N; subst s0. rewrite find_none.
    + unfold sRECORD_OBJECT. cbn [Nat.leb andb]. replace (sName s =? n) with true by lia.
      replace (sKind s =? 0x59) with false by lia. cbn. f_equal. lia.
    + intros j s' Hj. apply (La (S j) s'); [lia|exact Hj].
  - rewrite (IH (S k) _ p s).
    + f_equal. lia.
    + split; [exact N|]. split; [exact En|]. split; [exact Ek|].
      intros j s' Hj Nj. apply (La (S j) s'); [lia|exact Nj].
Qed.

Lemma find_hidden n s : seen n -> hidden s -> forall l k acc, find_sym n 0 k (l ++ [s]) acc = find_sym n 0 k l acc.
Proof.
  intros P H. induction l as [|s0 l IH]; intros k acc; cbn [app find_sym].
  - destruct H as [H|H]; cbn [Nat.leb andb].
    + replace (sName s =? n) with false by (unfold seen in *; lia). reflexivity.
    + unfold sRECORD_OBJECT. replace (sKind s =? 0x59) with true by lia. rewrite andb_false_r. reflexivity.
  - apply IH.
Qed.

Lemma find_upd n f : keeps f -> forall p l k acc, find_sym n 0 k (updl p f l) acc = find_sym n 0 k l acc.
Proof.
  intros K. induction p as [|p IH]; intros l k acc; destruct l as [|s l]; try reflexivity.
  - unfold updl. cbn [firstn skipn app find_sym]. destruct (K s) as (k1 & k2 & _). rewrite k1, k2. reflexivity.
  - unfold updl. cbn [firstn skipn app find_sym]. fold (updl p f l). apply IH.
Qed.

Lemma find_lt n : forall l k acc p, find_sym n 0 k l acc = Some p -> acc = Some p \/ (k <= p < k + length l)%nat.
Proof.
  induction l as [|s l IH]; intros k acc p H; cbn [find_sym] in H; [left; exact H|].
  apply IH in H. cbn [length]. destruct H as [H|H]; [|right; lia].
  destruct (_ && _); [inversion H; right; lia|left; exact H].
Qed.

(** ** States *)

Section Run.

Variables (lev : nat) (stk np : Z) (fw : list fref) (er : list Z).

(** [l] is read, and its first word is the current token. *)
Definition st (u v : Z) (l : list raw) (m : list sym) : ds :=
  next_from 0 (mkD 0 None 0 u l m lev stk v np fw er).

Lemma get_st u v x l m : getToken (st u v (x :: l) m) = Done tt (st (gUInt (st u v (x :: l) m)) v l m).
Proof using.
  assert (H : exists t p s, st u v (x :: l) m = mkD t p s (gUInt (st u v (x :: l) m)) l m lev stk v np fw er).
  { unfold st, next_from. destruct x as [c|z|z|z]; cbn [rest]; try (eexists _, _, _; reflexivity).
    cbn [syms]. destruct (find_sym z 0 0 m None) as [p|]; [|eexists _, _, _; reflexivity].
    destruct (nth_error m p) as [s|]; eexists _, _, _; reflexivity. }
  destruct H as (t & p & s & H). remember (gUInt (st u v (x :: l) m)) as g. rewrite H. reflexivity.
Qed.

Lemma syms_st u v l m : syms (st u v l m) = m.
Proof using.
  unfold st, next_from. cbn [rest]. destruct l as [|[c|z|z|z] l]; try reflexivity.
  cbn [syms]. destruct (find_sym z 0 0 m None) as [p|]; [|reflexivity].
  destruct (nth_error m p); reflexivity.
Qed.

Lemma vsize_st u v l m : gVarSize (st u v l m) = v.
Proof using.
  unfold st, next_from. cbn [rest]. destruct l as [|[c|z|z|z] l]; try reflexivity.
  cbn [syms]. destruct (find_sym z 0 0 m None) as [p|]; [|reflexivity].
  destruct (nth_error m p); reflexivity.
Qed.

Lemma set_vsize_st u v w l m : set_var_size w (st u v l m) = Done tt (st u (s32 w) l m).
Proof using.
  unfold set_var_size, st, next_from. cbn [rest]. destruct l as [|[c|z|z|z] l]; try reflexivity.
  cbn [syms]. destruct (find_sym z 0 0 m None) as [p|]; [|reflexivity].
  destruct (nth_error m p); reflexivity.
Qed.

Lemma set_syms_st u v l m m' :
  (forall n r, l = RId n :: r -> find_sym n 0 0 m' None = find_sym n 0 0 m None) ->
  (forall p s, nth_error m p = Some s -> exists s', nth_error m' p = Some s' /\ sKind s' = sKind s /\
     forall x q, sParm s' = PConst x q <-> sParm s = PConst x q) ->
  set_syms m' (st u v l m) = st u v l m'.
Proof using.
  intros H K. unfold set_syms, st, next_from. cbn [rest]. destruct l as [|[c|z|z|z] l]; try reflexivity.
  cbn [syms]. rewrite (H z l eq_refl). destruct (find_sym z 0 0 m None) as [p|] eqn:F; [|reflexivity].
  apply find_lt in F. destruct F as [F|F]; [discriminate|].
  destruct (nth_error m p) as [s|] eqn:N.
  - destruct (K p s N) as (s' & N' & E' & P'). rewrite N'. cbn. f_equal; [congruence|].
    destruct (sParm s) as [t|x q|f|x|] eqn:E; destruct (sParm s') as [t'|x' q'|f'|x'|] eqn:E2; try reflexivity.
    + exfalso. pose proof (proj1 (P' x' q') eq_refl). discriminate.
    + exfalso. pose proof (proj2 (P' x q) eq_refl). discriminate.
    + pose proof (proj2 (P' x q) eq_refl) as h. inversion h; reflexivity.
    + exfalso. pose proof (proj2 (P' x q) eq_refl). discriminate.
    + exfalso. pose proof (proj2 (P' x q) eq_refl). discriminate.
    + exfalso. pose proof (proj2 (P' x q) eq_refl). discriminate.
    + exfalso. pose proof (proj1 (P' x' q') eq_refl). discriminate.
    + exfalso. pose proof (proj1 (P' x' q') eq_refl). discriminate.
    + exfalso. pose proof (proj1 (P' x' q') eq_refl). discriminate.
  - exfalso. apply nth_error_None in N. lia.
Qed.

Lemma add_st u v l m s : posh l -> hidden s -> add_sym s (st u v l m) = Done (length m) (st u v l (m ++ [s])).
Proof using.
  intros P H. unfold add_sym. rewrite syms_st. f_equal. apply set_syms_st.
  - intros n r ->. cbn in P. apply find_hidden; assumption.
  - intros p s' N. exists s'. split; [rewrite nth_error_app1; [exact N|apply nth_error_Some; congruence]|].
    split; [reflexivity|]. intros; reflexivity.
Qed.

Lemma upd_st u v l m p f : keeps f -> upd p f (st u v l m) = Done tt (st u v l (updl p f m)).
Proof using.
  intros K. unfold upd. rewrite syms_st. fold (updl p f m). f_equal. apply set_syms_st.
  - intros n r _. apply find_upd; exact K.
  - intros i s N. rewrite nth_updl, N. destruct (i =? p)%nat; cbn; eexists; (split; [reflexivity|]).
    + destruct (K s) as (_ & k2 & k3). auto.
    + split; [reflexivity|]. intros; reflexivity.
Qed.

Lemma upd_type_st u v l m p g : upd_type p g (st u v l m) = Done tt (st u v l (updl p (ftype g) m)).
Proof using. apply (upd_st u v l m p (ftype g)). apply keeps_ftype. Qed.
Lemma upd_field_st u v l m p g : upd_field p g (st u v l m) = Done tt (st u v l (updl p (ffield g) m)).
Proof using. apply (upd_st u v l m p (ffield g)). apply keeps_ffield. Qed.

Lemma get_type_st u v l m p s t : nth_error m p = Some s -> sParm s = PType t ->
  get_type p (st u v l m) = Done t (st u v l m).
Proof using. intros N E. unfold get_type, bind, get_sym. rewrite syms_st, N, E. reflexivity. Qed.
Lemma as_type_st u v l m p s t : nth_error m p = Some s -> sParm s = PType t ->
  as_type p (st u v l m) = Done t (st u v l m).
Proof using. intros N E. unfold as_type, bind, get_sym. rewrite syms_st, N, E. reflexivity. Qed.
Lemma get_field_st u v l m p s t : nth_error m p = Some s -> sParm s = PField t ->
  get_field p (st u v l m) = Done t (st u v l m).
Proof using. intros N E. unfold get_field, bind, get_sym. rewrite syms_st, N, E. reflexivity. Qed.

(** The current token *)
Lemma tok_k u v c l m : gTok (st u v (RK c :: l) m) = c. Proof using. reflexivity. Qed.
Lemma tok_i u v z l m : gTok (st u v (RInt z :: l) m) = tINT_CONST. Proof using. reflexivity. Qed.
Lemma tok_c u v z l m : gTok (st u v (RChr z :: l) m) = tCHAR_CONST. Proof using. reflexivity. Qed.

Lemma st_named u v n l m p s : latest m n p s ->
  gTok (st u v (RId n :: l) m) = sKind s /\ gPtr (st u v (RId n :: l) m) = Some p.
Proof using.
  intros La. unfold st, next_from. cbn [rest syms]. rewrite (find_latest n m 0 None p s La).
  destruct La as (N & _). cbn [Nat.add]. rewrite N. split; reflexivity.
Qed.

Lemma st_free u v n l m : (forall j s, nth_error m j = Some s -> sName s = n -> sKind s = 0x59) ->
  gTok (st u v (RId n :: l) m) = tIDENT /\ gStr (st u v (RId n :: l) m) = n.
Proof using.
  intros H. unfold st, next_from. cbn [rest syms]. rewrite find_none by exact H. split; reflexivity.
Qed.

Lemma expect_st u v c l m e : expect c e (st u v (RK c :: l) m) = Done tt (st (gUInt (st u v (RK c :: l) m)) v l m).
Proof using.
  unfold expect, bind, token. rewrite tok_k, Z.eqb_refl. apply get_st.
Qed.

End Run.

(** ** Tables *)

(** Old entries stay, apart from those outside of [b, c) nobody looks up; new ones
    are hidden. *)
Definition evolves (b c : nat) (m m' : list sym) : Prop :=
  (length m <= length m')%nat /\
  (forall i s, nth_error m i = Some s -> exists s', nth_error m' i = Some s' /\ sName s' = sName s /\
     sKind s' = sKind s /\ ((b <= i < c)%nat \/ ~ hidden s -> s' = s)) /\
  (forall i s, (length m <= i)%nat -> nth_error m' i = Some s -> fresh i s).

Lemma evolves_refl b c m : evolves b c m m.
Proof.
  split; [lia|]. split.
  - intros i s N. exists s. auto.
  - intros i s H N. exfalso. apply nth_error_None in H. congruence.
Qed.

Lemma evolves_trans b c m1 m2 m3 : evolves b c m1 m2 -> evolves b c m2 m3 -> evolves b c m1 m3.
Proof.
  intros (a1 & a2 & a3) (b1 & b2 & b3). split; [lia|]. split.
  - intros i s N. destruct (a2 i s N) as (s' & N' & e1 & e2 & e3).
    destruct (b2 i s' N') as (s2 & N2 & f1 & f2 & f3). exists s2. split; [exact N2|].
    split; [congruence|]. split; [congruence|].
    intros H. pose proof (e3 H). subst s'. apply f3. exact H.
  - intros i s H N. destruct (nth_error m2 i) as [s2|] eqn:N2.
    + pose proof (a3 i s2 H N2) as h. destruct (b2 i s2 N2) as (s3 & N3 & f1 & f2 & f3).
      rewrite N in N3. inversion N3; subst s3. unfold fresh in *. rewrite f1, f2. exact h.
    + apply (b3 i s); [apply nth_error_None; exact N2|exact N].
Qed.

Lemma evolves_narrow b c b' c' m m' : (b <= b')%nat -> (c' <= c)%nat -> evolves b c m m' -> evolves b' c' m m'.
Proof.
  intros B C (a1 & a2 & a3). split; [exact a1|]. split; [|exact a3].
  intros i s N. destruct (a2 i s N) as (s' & N' & e1 & e2 & e3). exists s'. repeat (split; [assumption|]).
  intros [H|H]; apply e3; [left; lia|right; exact H].
Qed.

Lemma evolves_app b c m s : fresh (length m) s -> evolves b c m (m ++ [s]).
Proof.
  intros H. split; [rewrite app_length; lia|]. split.
  - intros i x N. exists x. split; [rewrite nth_error_app1; [exact N|apply nth_error_Some; congruence]|auto].
  - intros i x L N. rewrite nth_error_app2 in N by exact L.
    destruct (i - length m)%nat as [|k] eqn:Ei; [inversion N; subst; replace i with (length m) by lia; exact H|destruct k; discriminate].
Qed.

Lemma evolves_upd b c m p f s : keeps f -> nth_error m p = Some s -> hidden s -> (p < b \/ c <= p)%nat ->
  evolves b c m (updl p f m).
Proof.
  intros K N H P. split; [rewrite length_updl; lia|]. split.
  - intros i x Nx. rewrite nth_updl, Nx. destruct (i =? p)%nat eqn:Ei; cbn.
    + eexists. split; [reflexivity|]. destruct (K x) as (k1 & k2 & _). split; [exact k1|]. split; [exact k2|].
      apply Nat.eqb_eq in Ei. subst i. rewrite N in Nx. inversion Nx; subst x. intros [h|h]; [lia|contradiction].
    + exists x. auto.
  - intros i x L Nx. exfalso. apply nth_error_None in L. rewrite nth_updl, L in Nx.
    destruct (i =? p)%nat; discriminate.
Qed.

(** [m'] is [m] with new entries *)
Definition grows (m m' : list sym) : Prop := evolves 0 (length m) m m'.

Lemma grows_refl m : grows m m.
Proof. apply evolves_refl. Qed.
Lemma grows_len m m' : grows m m' -> (length m <= length m')%nat.
Proof. intros (H & _). exact H. Qed.
Lemma grows_nth m m' i s : grows m m' -> nth_error m i = Some s -> nth_error m' i = Some s.
Proof.
  intros (_ & H & _) N. destruct (H i s N) as (s' & N' & _ & _ & e). rewrite N'. f_equal. apply e. left.
  split; [lia|]. apply nth_error_Some. congruence.
Qed.
Lemma grows_trans m1 m2 m3 : grows m1 m2 -> grows m2 m3 -> grows m1 m3.
Proof.
  intros A B. eapply evolves_trans; [exact A|].
  eapply evolves_narrow; [apply Nat.le_refl| |exact B]. apply (grows_len _ _ A).
Qed.
Lemma grows_app m s : fresh (length m) s -> grows m (m ++ [s]).
Proof. apply evolves_app. Qed.
Lemma grows_evolves b c m m' : grows m m' -> evolves b c m m'.
Proof.
  intros H. pose proof H as (a1 & a2 & a3). split; [exact a1|]. split; [|exact a3].
  intros i s N. exists s. split; [eapply grows_nth; eassumption|auto].
Qed.
Lemma grows_upd m m' p f s : grows m m' -> keeps f -> nth_error m' p = Some s -> hidden s -> (length m <= p)%nat ->
  grows m (updl p f m').
Proof.
  intros G K N H P. eapply evolves_trans; [exact G|]. eapply evolves_upd; [exact K|exact N|exact H|]. right. exact P.
Qed.
Lemma grows_fresh m m' i s : grows m m' -> (length m <= i)%nat -> nth_error m' i = Some s -> fresh i s.
Proof. intros (_ & _ & H) L N. exact (H i s L N). Qed.
Lemma grows_hidden m m' i s : grows m m' -> (length m <= i)%nat -> nth_error m' i = Some s -> hidden s.
Proof. intros G L N. eapply fresh_hidden, grows_fresh; eassumption. Qed.

(** ** What is said of types stays true *)

Lemma latest_evolves b c m m' n p s : seen n -> evolves b c m m' -> latest m n p s -> latest m' n p s.
Proof.
  intros P (a1 & a2 & a3) (N & En & Ek & La).
  destruct (a2 p s N) as (s' & N' & _ & _ & e). rewrite e in N'.
  2: { right. unfold hidden. rewrite En. intuition. }
  split; [exact N'|]. split; [exact En|]. split; [exact Ek|].
  intros j x Hj Nx Ex. destruct (nth_error m j) as [y|] eqn:Ny.
  - destruct (a2 j y Ny) as (z & Nz & f1 & f2 & _). rewrite Nx in Nz. inversion Nz; subst z.
    rewrite f2. apply (La j y Hj Ny). congruence.
  - apply nth_error_None in Ny. destruct (fresh_hidden j x (a3 j x Ny Nx)) as [h|h]; [rewrite Ex in h; contradiction|assumption].
Qed.

Lemma type_at_evolves b c b1 c1 m m' p t : evolves b c m m' -> (b <= b1)%nat -> (c1 <= c)%nat ->
  type_at m b1 c1 p t -> type_at m' b1 c1 p t.
Proof.
  intros (a1 & a2 & a3) B C (H & s & N & Ek & Ep). split; [exact H|].
  destruct (a2 p s N) as (s' & N' & _ & _ & e). rewrite e in N' by (left; lia).
  exists s. auto.
Qed.

Lemma field_at_evolves b c m m' p n f : evolves b c m m' -> (b <= p < c)%nat ->
  field_at m p n f -> field_at m' p n f.
Proof.
  intros (a1 & a2 & a3) B (s & N & Ek & En & Ep).
  destruct (a2 p s N) as (s' & N' & _ & _ & e). rewrite e in N' by (left; lia).
  exists s. auto.
Qed.

Lemma indexes_evolves b c b1 c1 m m' : evolves b c m m' -> (b <= b1)%nat -> (c1 <= c)%nat ->
  forall is q u, indexes m b1 c1 q u is -> indexes m' b1 c1 q u is.
Proof.
  intros V B C. induction is as [|i is IH]; intros q u; cbn [indexes]; [auto|].
  intros (p & t & -> & T & k1 & k2 & h1 & h2 & h3 & h4). exists p, t. split; [reflexivity|].
  split; [eapply type_at_evolves; eassumption|]. auto 10.
Qed.

Lemma described E m n z f : describes E m -> E n = EType z f ->
  0 < n /\ 0 <= z < 65536 /\ exists p s t, latest m n p s /\ sKind s = 0x44 /\ sParm s = PType t /\
                        tSize t = z /\ (f = true -> tPar t = None).
Proof. intros D En. specialize (D n). rewrite En in D. exact D. Qed.

Lemma describes_evolves E b c m m' : E own = EOther -> evolves b c m m' -> describes E m -> describes E m'.
Proof.
  intros W V D n. specialize (D n). destruct (E n) as [z f| |] eqn:En0; [| |exact I].
  - destruct D as (P & Z & p & s & t & La & h). split; [exact P|]. split; [exact Z|]. exists p, s, t.
    split; [eapply latest_evolves; [split; [exact P|congruence]|exact V|exact La]|exact h].
  - destruct D as (P & H). split; [exact P|]. intros j s N En. destruct V as (a1 & a2 & a3).
    destruct (nth_error m j) as [y|] eqn:Ny.
    + destruct (a2 j y Ny) as (z & Nz & f1 & f2 & _). rewrite N in Nz. inversion Nz; subst z.
      rewrite f2. apply (H j y Ny). congruence.
    + apply nth_error_None in Ny. destruct (fresh_hidden j s (a3 j s Ny N)) as [h|h]; [|assumption].
      exfalso. apply h. split; [lia|congruence].
Qed.

(** Names that [E] knows are looked up *)
Definition posE (E : names) : Prop := forall n z f, E n = EType z f -> seen n.

Lemma shaped_evolves E : posE E ->
  (forall t b c m m', evolves b c m m' -> fine E t -> forall b1 c1 p, (b <= b1)%nat -> (c1 <= c)%nat ->
     shaped E m b1 c1 p t -> shaped E m' b1 c1 p t) /\
  (forall fs b c m m', evolves b c m m' -> fine_fields E fs -> forall rp off i c1, (b <= i)%nat -> (c1 <= c)%nat ->
     fields_at E m rp off i c1 fs -> fields_at E m' rp off i c1 fs).
Proof.
  intros PE. apply ty_fields_ind.
  - intros n b c m m' V (z & f & En) b1 c1 p B C (s & r & La & h). exists s, r.
    split; [eapply latest_evolves; [eapply PE; exact En|exact V|exact La]|exact h].
  - intros lo hi b c m m' V F b1 c1 p B C (r & T & h). exists r. split; [eapply type_at_evolves; eassumption|exact h].
  - intros lo hi b c m m' V F b1 c1 p B C (r & T & h). exists r. split; [eapply type_at_evolves; eassumption|exact h].
  - intros n b c m m' V (z & f & En) b1 c1 p B C (r & T & h1 & h2 & q & s & La & h3). exists r.
    split; [eapply type_at_evolves; eassumption|]. split; [exact h1|]. split; [exact h2|].
    exists q, s. split; [eapply latest_evolves; [eapply PE; exact En|exact V|exact La]|exact h3].
  - intros lo hi b c m m' V F b1 c1 p B C (r & T & h). exists r. split; [eapply type_at_evolves; eassumption|exact h].
  - intros lo hi more t IH b c m m' V (F & _) b1 c1 p B C (r & T & h1 & h2 & h3 & h4 & q & h5 & h6). exists r.
    split; [eapply type_at_evolves; eassumption|]. split; [exact h1|]. split; [exact h2|]. split; [exact h3|].
    split; [eapply indexes_evolves; eassumption|]. exists q. split; [exact h5|]. eapply IH; eassumption.
  - intros fs IH b c m m' V (F & _) b1 c1 p B C (r & T & h1 & h2 & h3 & h4 & h5). exists r.
    split; [eapply type_at_evolves; eassumption|]. split; [exact h1|]. split; [exact h2|]. split; [exact h3|].
    split; [exact h4|]. destruct T as (T & _). eapply IH; [exact V|exact F| | |exact h5]; lia.
  - intros n t IH b c m m' V (_ & F) rp off i c1 B C (f & tp & h1 & h2 & h3 & h4 & h5 & h6 & h7 & h8).
    exists f, tp. split; [eapply field_at_evolves; [exact V|lia|exact h1]|]. repeat (split; [assumption|]).
    eapply IH; [exact V|exact F| | |exact h8]; lia.
  - intros n t IH fs IHf b c m m' V (_ & F & Ff) rp off i c1 B C
      (f & tp & j & h1 & h2 & h3 & h4 & h5 & h6 & h7 & h8 & h9).
    exists f, tp, j. split; [eapply field_at_evolves; [exact V|lia|exact h1]|]. repeat (split; [assumption|]).
    split; [eapply IH; [exact V|exact F| | |exact h8]; lia|].
    eapply IHf; [exact V|exact Ff| | |exact h9]; lia.
Qed.

End Own.
