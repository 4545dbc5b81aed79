(** The compiler reading a well-formed record type. *)

From Coq Require Import ZArith Bool List Lia ZifyBool.
From Verif Require Import Words ExprModel DeclModel DeclTypes DeclSpec DeclRun DeclRead DeclShape DeclArray.
Import ListNotations.
Open Scope Z_scope.

Lemma number_pos fs : 1 <= number fs.
Proof. induction fs; cbn [number]; lia. Qed.

Lemma up_ge off z : off <= up off z <= off + 1.
Proof. unfold up. destruct (z =? 1); [lia|]. pose proof (Z.div_mod (off + 1) 2). pose proof (Z.mod_pos_bound (off + 1) 2). lia. Qed.

Definition link (p : nat) (f : fldrec) : fldrec := mkFld (rSize f) (rOff f) (rRec f) (rPar f) (Some p).

(** What declaring [k] fields, the first of them at [fp], does to older entries *)
Definition touch (rp : nat) (last : option nat) (k : Z) (fp : nat) (i : nat) (s : sym) : sym :=
  if (i =? rp)%nat then ftype (fun t => set_max (tMax t + k) t) s
  else match last with
       | Some q => if (i =? q)%nat then ffield (link fp) s else s
       | None => s
       end.

Section Rec.

Variable own : Z.
Variable pos : nat.
Variables (lev : nat) (stk np : Z) (fw : list fref) (er : list Z).
Notation st := (st lev stk np fw er).
Variable E : names.
Hypothesis HO : E own = EOther.
Notation reads := (reads own pos lev stk np fw er E).

Fixpoint all_read (td : M nat) (fs : fields) : Prop :=
  match fs with
  | FLast n t => reads td t
  | FMore n t r => reads td t /\ all_read td r
  end.

(** [fields_at] before offsets are known *)
Fixpoint listed (l : list sym) (rp i c : nat) (fs : fields) : Prop :=
  match fs with
  | FLast n t => exists f tp, field_at l i n f /\ rRec f = rp /\ rSize f = sizeof E t /\
      rPar f = Some tp /\ rNext f = None /\ (i < c)%nat /\ shaped E l (S i) c tp t
  | FMore n t r => exists f tp j, field_at l i n f /\ rRec f = rp /\ rSize f = sizeof E t /\
      rPar f = Some tp /\ rNext f = Some j /\ (i < j < c)%nat /\ shaped E l (S i) j tp t /\ listed l rp j c r
  end.

Definition old_ok (m : list sym) (rp : nat) (last : option nat) : Prop :=
  (exists s t, nth_error m rp = Some s /\ sParm s = PType t /\ hidden own s) /\
  (forall q, last = Some q -> q <> rp /\ exists s f, nth_error m q = Some s /\ sKind s = 0x59 /\ sParm s = PField f).

Lemma field_st td k rp last n t u v y r m :
  reads td t -> E n = EFree -> fine E t -> describes E m -> y <> tLBRACK -> old_ok m rp last ->
  exists u' m' p, declare_field td (S k) rp last (st u v (RId n :: RK tCOLON :: written t ++ RK y :: r) m) =
    Done (Some (length m)) (st u' (sizeof E t) (RK y :: r) m') /\
    (length m < length m')%nat /\
    field_at m' (length m) n (mkFld (sizeof E t) 0 rp (Some p) None) /\
    shaped E m' (S (length m)) (length m') p t /\
    (forall i s, nth_error m i = Some s -> nth_error m' i = Some (touch rp last 1 (length m) i s)) /\
    (forall i s, (length m <= i)%nat -> nth_error m' i = Some s -> fresh own pos i s).
Proof using HO.
  intros R En Ft D Y ((sr & ar & Nr & Pr & Hr) & Lo).
  pose proof (posE_describes own E HO m D) as PE.
  assert (Sn : seen own n). { pose proof (D n) as h. rewrite En in h. split; [lia|congruence]. }
  assert (Fr : forall j s, nth_error m j = Some s -> sName s = n -> sKind s = 0x59).
  { pose proof (D n) as h. rewrite En in h. apply h. }
  set (f0 := mkS n sRECORD_OBJECT (PField (mkFld 0 0 rp None None))).
  set (m1 := m ++ [f0]).
  set (m2 := match last with Some q => updl q (ffield (link (length m))) m1 | None => m1 end).
  assert (Lr : (rp < length m)%nat) by (apply nth_error_Some; congruence).
  assert (G1 : evolves own pos (length m) (S (length m)) m m1) by (apply evolves_app; right; left; reflexivity).
  assert (L2 : length m2 = S (length m)).
  { unfold m2. destruct last; rewrite ?length_updl; unfold m1; rewrite app_length; cbn; lia. }
  assert (V2 : evolves own pos (length m) (S (length m)) m m2).
  { unfold m2. destruct last as [q|]; [|exact G1].
    destruct (Lo q eq_refl) as (_ & sq & fq & Nq & Kq & Pq).
    assert (q < length m)%nat by (apply nth_error_Some; congruence).
    eapply evolves_trans; [exact G1|]. eapply evolves_upd.
    - apply keeps_ffield.
    - unfold m1. rewrite nth_error_app1 by assumption. exact Nq.
    - right. exact Kq.
    - left. assumption. }
  assert (D2 : describes E m2) by (eapply describes_evolves; [exact HO|exact V2|exact D]).
  destruct (R (gUInt (st u v (RId n :: RK tCOLON :: written t ++ RK y :: r) m2)) v y r m2 D2 Y) as (p & m3 & u3 & Rt & G3 & Sh).
  pose proof (grows_len _ _ _ _ G3) as L3.
  set (m4 := updl rp (ftype (fun t => set_max (tMax t + 1) t)) m3).
  destruct (shaped_type E m3 _ _ p t Sh) as (sp & tp & Np & Kp & Pp & Sp).
  (* the type in m4, unless it is the record itself *)
  assert (N2 : forall i s, nth_error m i = Some s -> nth_error m2 i = Some (if match last with Some q => (i =? q)%nat | None => false end then ffield (link (length m)) s else s)).
  { intros i s N. unfold m2. assert (i < length m)%nat by (apply nth_error_Some; congruence).
    destruct last as [q|].
    - rewrite nth_updl. unfold m1. rewrite nth_error_app1 by assumption. rewrite N. destruct (i =? q)%nat; reflexivity.
    - unfold m1. rewrite nth_error_app1 by assumption. exact N. }
  assert (N2f : nth_error m2 (length m) = Some f0).
  { unfold m2. destruct last as [q|].
    - destruct (Lo q eq_refl) as (_ & sq & fq & Nq & _). assert (q < length m)%nat by (apply nth_error_Some; congruence).
      rewrite nth_updl. replace (length m =? q)%nat with false by (symmetry; apply Nat.eqb_neq; lia).
      unfold m1. rewrite nth_error_app2, Nat.sub_diag by lia. reflexivity.
    - unfold m1. rewrite nth_error_app2, Nat.sub_diag by lia. reflexivity. }
  assert (N2r : nth_error m2 rp = Some sr).
  { rewrite (N2 rp sr Nr). destruct last as [q|]; [|reflexivity].
    destruct (Lo q eq_refl) as (Q & _). replace (rp =? q)%nat with false by (symmetry; apply Nat.eqb_neq; lia). reflexivity. }
  assert (N3r : nth_error m3 rp = Some sr) by (eapply grows_nth; eassumption).
  assert (N3f : nth_error m3 (length m) = Some f0) by (eapply grows_nth; eassumption).
  assert (Pr' : p <> rp).
  { intros ->. destruct t as [nn| | | | | | ]; cbn [shaped] in Sh.
    1: { destruct Sh as (s & rr & La & K & _). destruct La as (Na & Ena & _). rewrite N3r in Na. inversion Na; subst s.
         destruct Ft as (z & f & Enn). pose proof (PE nn z f Enn) as Se.
         destruct Hr as [h|h]; [rewrite Ena in h; contradiction|congruence]. }
    all: destruct Sh as (rr & (B & _) & _); lia. }
  assert (N4p : nth_error m4 p = Some sp).
  { unfold m4. rewrite nth_updl. replace (p =? rp)%nat with false by (symmetry; apply Nat.eqb_neq; exact Pr'). exact Np. }
  set (m5 := updl (length m) (ffield (fun f => mkFld (tSize tp) (rOff f) (rRec f) (Some p) (rNext f))) m4).
  assert (L5 : length m5 = length m3) by (unfold m5, m4; rewrite !length_updl; reflexivity).
  exists u3, m5, p. split.
  { cbn [declare_field]. rewrite bind_token. destruct (st_free lev stk np fw er u v n (RK tCOLON :: written t ++ RK y :: r) m Fr) as (T1 & T2).
    rewrite T1. ck. rewrite bind_str, T2. cbv beta. unfold add_field. sx.
    erewrite bind_run by (apply (add_st own); [exact Sn|right; reflexivity]). cbv beta. fold f0 m1.
    destruct last as [q|].
    - sx. sx. sx. change (fun f => mkFld (rSize f) (rOff f) (rRec f) (rPar f) (Some (length m))) with (link (length m)).
      fold m2. sx. sx. sx. sx. sx. erewrite bind_run by exact Rt. cbv beta. sx. sx. fold m4.
      cbv beta iota. erewrite bind_run by (eapply get_type_st; eassumption). cbv beta. sx. fold m5. reflexivity.
    - sx. fold m2. sx. sx. sx. sx. sx. erewrite bind_run by exact Rt. cbv beta. sx. sx. fold m4.
      cbv beta iota. erewrite bind_run by (eapply get_type_st; eassumption). cbv beta. sx. fold m5. reflexivity. }
  split; [lia|]. split.
  { eexists. split.
    - unfold m5. rewrite nth_updl, Nat.eqb_refl. unfold m4. rewrite nth_updl.
      replace (length m =? rp)%nat with false by (symmetry; apply Nat.eqb_neq; lia). rewrite N3f. cbn. reflexivity.
    - cbn. rewrite Sp. auto. }
  split.
  { destruct (shaped_evolves own pos E PE) as (SE & _). rewrite L5. rewrite L2 in Sh.
    eapply SE; [|exact Ft|apply Nat.le_refl|apply Nat.le_refl|exact Sh].
    eapply evolves_trans; [unfold m4; eapply (evolves_upd own pos); [apply keeps_ftype|exact N3r|exact Hr|lia]|].
    fold m4. unfold m5. eapply (evolves_upd own pos); [apply keeps_ffield| | |lia].
    - unfold m4. rewrite nth_updl. replace (length m =? rp)%nat with false by (symmetry; apply Nat.eqb_neq; lia). exact N3f.
    - right. reflexivity. }
  split.
  { intros i s N. assert (i < length m)%nat by (apply nth_error_Some; congruence).
    unfold m5. rewrite nth_updl. replace (i =? length m)%nat with false by (symmetry; apply Nat.eqb_neq; lia).
    unfold m4. rewrite nth_updl. rewrite (grows_nth own pos m2 m3 i _ G3 (N2 i s N)). unfold touch.
    destruct (i =? rp)%nat eqn:Ei.
    - apply Nat.eqb_eq in Ei. subst i. destruct last as [q|]; [|reflexivity].
      destruct (Lo q eq_refl) as (Q & _). replace (rp =? q)%nat with false by (symmetry; apply Nat.eqb_neq; lia). reflexivity.
    - destruct last as [q|]; [|reflexivity]. destruct (i =? q)%nat; reflexivity. }
  intros i s Li N.
  assert (H3 : forall i s, (length m <= i)%nat -> nth_error m3 i = Some s -> fresh own pos i s).
  { intros j x Lj Nj. destruct (Nat.eq_dec j (length m)) as [->|Hn].
    - rewrite N3f in Nj. inversion Nj. right. left. reflexivity.
    - eapply grows_fresh; [exact G3| |exact Nj]. lia. }
  unfold m5, m4 in N. rewrite !nth_updl in N.
  destruct (nth_error m3 i) as [x|] eqn:Nx; [|destruct (i =? length m)%nat, (i =? rp)%nat; discriminate].
  pose proof (H3 i x Li Nx) as h. unfold fresh in *.
  replace (i =? rp)%nat with false in N by (symmetry; apply Nat.eqb_neq; lia).
  destruct (i =? length m)%nat; cbn in N; inversion N; subst s; [|exact h].
  destruct (keeps_ffield (fun f => mkFld (tSize tp) (rOff f) (rRec f) (Some p) (rNext f)) x) as (k1 & k2 & _).
  rewrite k1, k2. exact h.
Qed.

Lemma touch_keeps rp last k fp i s : sName (touch rp last k fp i s) = sName s /\ sKind (touch rp last k fp i s) = sKind s.
Proof using.
  unfold touch. destruct (i =? rp)%nat.
  - destruct (keeps_ftype (fun t => set_max (tMax t + k) t) s) as (a & b & _). auto.
  - destruct last as [q|]; [|auto]. destruct (i =? q)%nat; [|auto].
    destruct (keeps_ffield (link fp) s) as (a & b & _). auto.
Qed.

Lemma touch_evolves m m' rp last k fp b c : old_ok m rp last ->
  (forall i s, nth_error m i = Some s -> nth_error m' i = Some (touch rp last k fp i s)) ->
  (forall i s, (length m <= i)%nat -> nth_error m' i = Some s -> fresh own pos i s) ->
  (length m <= length m')%nat -> (rp < b \/ c <= rp)%nat -> (forall q, last = Some q -> (q < b \/ c <= q)%nat) ->
  evolves own pos b c m m'.
Proof using.
  intros ((sr & ar & Nr & Pr & Hr) & Lo) H1 H2 L B1 B2. split; [exact L|]. split; [|exact H2].
  intros i s N. exists (touch rp last k fp i s). split; [apply H1; exact N|].
  destruct (touch_keeps rp last k fp i s) as (a & b'). split; [exact a|]. split; [exact b'|].
  intros Q. unfold touch. destruct (i =? rp)%nat eqn:Ei.
  - apply Nat.eqb_eq in Ei. subst i. rewrite Nr in N. inversion N; subst s. destruct Q as [Q|Q]; [lia|contradiction].
  - destruct last as [q|]; [|reflexivity]. destruct (i =? q)%nat eqn:Eq; [|reflexivity].
    apply Nat.eqb_eq in Eq. subst i. destruct (Lo q eq_refl) as (_ & sq & fq & Nq & Kq & _).
    rewrite Nq in N. inversion N; subst s. destruct Q as [Q|Q]; [specialize (B2 q eq_refl); lia|].
    exfalso. apply Q. right. exact Kq.
Qed.

Lemma fixed_st td rp : forall fs k last u v r m,
  all_read td fs -> fine_fields E fs -> describes E m -> old_ok m rp last -> (Z.to_nat (number fs) <= k)%nat ->
  exists u' v' m', fixed_part td k rp last (st u v (w_fields fs ++ RK tEND :: r) m) =
    Done tt (st u' v' (RK tEND :: r) m') /\
    (length m < length m')%nat /\
    listed m' rp (length m) (length m') fs /\
    (forall i s, nth_error m i = Some s -> nth_error m' i = Some (touch rp last (number fs) (length m) i s)) /\
    (forall i s, (length m <= i)%nat -> nth_error m' i = Some s -> fresh own pos i s).
Proof using HO.
  induction fs as [n t|n t fs IH]; intros k last u v r m A F D O K.
  - destruct F as (En & Ft). cbn [all_read] in A. destruct k as [|k]; [cbn [number] in K; lia|].
    destruct (field_st td k rp last n t u v tEND r m A En Ft D ltac:(discriminate) O)
      as (u' & m' & p & e & L & Fa & Sh & Ol & Nw).
    exists u', (sizeof E t), m'. split.
    { cbn [fixed_part w_fields app]. rewrite bind_token.
      assert (Fr : forall j s, nth_error m j = Some s -> sName s = n -> sKind s = 0x59).
      { pose proof (D n) as h. rewrite En in h. apply h. }
      destruct (st_free lev stk np fw er u v n (RK 58 :: written t ++ RK tEND :: r) m Fr) as (T1 & T2).
      rewrite T1. ck. change (RK 58) with (RK tCOLON). erewrite bind_run by exact e. sx. reflexivity. }
    split; [exact L|]. split.
    { cbn [listed]. eexists _, p. split; [exact Fa|]. cbn. auto 8. }
    split; [exact Ol|exact Nw].
  - destruct F as (En & Ft & Ff). destruct A as (A1 & A2). pose proof (number_pos fs) as NP.
    destruct k as [|k]; [cbn [number] in K; lia|].
    destruct (field_st td k rp last n t u v tSEMI (w_fields fs ++ RK tEND :: r) m A1 En Ft D ltac:(discriminate) O)
      as (u1 & m1 & p & e & L & Fa & Sh & Ol & Nw).
    assert (V1 : evolves own pos (length m) (length m) m m1).
    { eapply touch_evolves; [exact O|exact Ol|exact Nw|lia| |].
      - lia.
      - intros q _. lia. }
    assert (D1 : describes E m1) by (eapply describes_evolves; [exact HO|exact V1|exact D]).
    assert (O1 : old_ok m1 rp (Some (length m))).
    { destruct O as ((sr & ar & Nr & Pr & Hr) & Lo). split.
      - exists (touch rp last 1 (length m) rp sr), (set_max (tMax ar + 1) ar). split; [apply Ol; exact Nr|].
        destruct (touch_keeps rp last 1 (length m) rp sr) as (a & b). split.
        + unfold touch. rewrite Nat.eqb_refl. unfold ftype. rewrite Pr. reflexivity.
        + unfold hidden in *. rewrite a, b. exact Hr.
      - intros q Q. inversion Q; subst q. split.
        + assert (rp < length m)%nat by (apply nth_error_Some; congruence). lia.
        + destruct Fa as (s & a & b & c & dd). eexists s, _. split; [exact a|]. split; [exact b|exact dd]. }
    destruct (IH k (Some (length m)) u1 (sizeof E t) r m1 A2 Ff D1 O1) as (u2 & v2 & m2 & e2 & L2 & Li & Ol2 & Nw2).
    { cbn [number] in K. lia. }
    exists u2, v2, m2. split.
    { cbn [fixed_part w_fields app]. rewrite bind_token.
      assert (Fr : forall j s, nth_error m j = Some s -> sName s = n -> sKind s = 0x59).
      { pose proof (D n) as h. rewrite En in h. apply h. }
      rewrite <- app_assoc. cbn [app].
      destruct (st_free lev stk np fw er u v n (RK 58 :: written t ++ RK 59 :: w_fields fs ++ RK tEND :: r) m Fr) as (T1 & T2).
      rewrite T1. ck. change (RK 58) with (RK tCOLON). change (RK 59) with (RK tSEMI).
      assert (TT : gTok (st u1 (sizeof E t) (w_fields fs ++ RK tEND :: r) m1) = tIDENT).
      { assert (Hd : exists n2 l2, w_fields fs ++ RK tEND :: r = RId n2 :: l2 /\ E n2 = EFree).
        { destruct fs as [n2 t2|n2 t2 fs2]; cbn [w_fields app]; eexists n2, _;
            (split; [reflexivity|destruct Ff as (h & _); exact h]). }
        destruct Hd as (n2 & l2 & -> & En2).
        assert (Fr2 : forall j s, nth_error m1 j = Some s -> sName s = n2 -> sKind s = 0x59).
        { pose proof (D1 n2) as h. rewrite En2 in h. apply h. }
        apply (st_free lev stk np fw er u1 (sizeof E t) n2 l2 m1 Fr2). }
      erewrite bind_run by exact e. sx. sx. rewrite bind_token, TT. cbv beta. ck. exact e2. }
    split; [lia|]. split.
    { cbn [listed]. destruct Fa as (s & a & b & c & dd).
      exists (link (length m1) (mkFld (sizeof E t) 0 rp (Some p) None)), p, (length m1). split.
      { exists (touch rp (Some (length m)) (number fs) (length m1) (length m) s). split; [apply Ol2; exact a|].
        destruct (touch_keeps rp (Some (length m)) (number fs) (length m1) (length m) s) as (h1 & h2).
        split; [rewrite h2; exact b|]. split; [rewrite h1; exact c|].
        unfold touch. rewrite Nat.eqb_refl. replace (length m =? rp)%nat with false.
        - unfold ffield. rewrite dd. reflexivity.
        - symmetry. apply Nat.eqb_neq. destruct O1 as (_ & h). destruct (h (length m) eq_refl) as (h' & _). exact h'. }
      cbn [link rRec rSize rPar rNext]. split; [reflexivity|]. split; [reflexivity|]. split; [reflexivity|].
      split; [reflexivity|]. split; [lia|]. split; [|exact Li].
      pose proof (posE_describes own E HO m D) as PE. destruct (shaped_evolves own pos E PE) as (SE & _).
      eapply SE; [|exact Ft|apply Nat.le_refl|apply Nat.le_refl|exact Sh].
      eapply touch_evolves; [exact O1|exact Ol2|exact Nw2|lia| |].
      - destruct O as ((sr & ar & Nr & _) & _). assert (rp < length m)%nat by (apply nth_error_Some; congruence). lia.
      - intros q Q. inversion Q; subst q. lia. }
    split.
    { intros i s N. pose proof (Ol i s N) as N1. rewrite (Ol2 i _ N1). f_equal.
      assert (i < length m)%nat by (apply nth_error_Some; congruence).
      unfold touch. destruct (i =? rp)%nat eqn:Ei.
      - apply Nat.eqb_eq in Ei. subst i. unfold ftype. destruct (sParm s) as [t0| | | |] eqn:Es; cbn [sParm sName sKind]; rewrite ?Es; try reflexivity.
        unfold set_max. cbn [tType tSub tDim tSize tMin tMax tPar tIdx].
        replace (tMax t0 + 1 + number fs) with (tMax t0 + number (FMore n t fs)) by (cbn [number]; lia). reflexivity.
      - replace (i =? length m)%nat with false by (symmetry; apply Nat.eqb_neq; lia). reflexivity. }
    intros i s Hi N. destruct (Nat.lt_ge_cases i (length m1)) as [H|H].
    + destruct (nth_error m1 i) as [x|] eqn:Nx; [|apply nth_error_None in Nx; lia].
      rewrite (Ol2 i x Nx) in N. inversion N; subst s. pose proof (Nw i x Hi Nx) as h.
      destruct (touch_keeps rp (Some (length m)) (number fs) (length m1) i x) as (h1 & h2). unfold fresh in *. rewrite h1, h2. exact h.
    + exact (Nw2 i s H N).
Qed.

(** ** Offsets *)

Lemma sizeof_pos m : describes E m -> (forall t, fine E t -> 0 <= sizeof E t < 65536) /\
  (forall fs, fine_fields E fs -> forall off, 0 <= off -> off <= size_from E off fs).
Proof using.
  intros D. apply ty_fields_ind.
  - intros n (z & f & En). cbn [sizeof]. rewrite En. destruct (described E m n z f D En) as (_ & h & _). exact h.
  - intros; cbn; lia.
  - intros; cbn; lia.
  - intros; cbn; lia.
  - intros; cbn; lia.
  - intros lo hi more t IH (Ft & El & Fi & Lm & Zp & Zt). split; [|exact Zt]. cbn [sizeof].
    pose proof (product_pos ((lo, hi) :: more) (sizeof E t) Fi Zp). cbn [fold_left] in H. lia.
  - intros fs IH (Ff & Z). pose proof (IH Ff 0 ltac:(lia)). cbn [sizeof] in *. lia.
  - intros n t IH (En & Ft) off P. cbn [size_from]. pose proof (up_ge off (sizeof E t)). specialize (IH Ft). lia.
  - intros n t IH fs IHf (En & Ft & Ff) off P. cbn [size_from]. pose proof (up_ge off (sizeof E t)). specialize (IH Ft).
    pose proof (IHf Ff (up off (sizeof E t) + sizeof E t) ltac:(lia)). lia.
Qed.

Lemma align_st off f tp s t u v l m : nth_error m tp = Some s -> sKind s = 0x44 -> sParm s = PType t -> rPar f = Some tp ->
  0 <= off -> up off (tSize t) < 32768 ->
  exists al, (if INT_ISALIGNED off then ret false else int_align_required (rPar f)) (st u v l m) = Done al (st u v l m) /\
    (if al then s16 (INT_ALIGNUP off) else off) = up off (tSize t).
Proof using.
  intros N K P R O U. unfold INT_ISALIGNED. destruct (off mod 2 =? 0) eqn:A.
  - exists false. split; [reflexivity|]. unfold up. destruct (tSize t =? 1); [reflexivity|].
    pose proof (Z.div_mod off 2). pose proof (Z.div_mod (off + 1) 2). pose proof (Z.mod_pos_bound (off + 1) 2). lia.
  - rewrite R. unfold int_align_required. erewrite bind_run by (eapply as_type_st; eassumption). cbv beta.
    unfold up in *. destruct (tSize t =? 1) eqn:B; [exists false; split; reflexivity|].
    exists true. split.
    + unfold bind, get_sym. rewrite syms_st, N, K. reflexivity.
    + unfold INT_ALIGNUP. pose proof (Z.div_pos (off + 1) 2 ltac:(lia) ltac:(lia)). rewrite s16_id by lia. lia.
Qed.

Lemma place_st : forall fs rp i c off u v l m, listed m rp i c fs -> fine_fields E fs -> describes E m -> (c <= length m)%nat ->
  0 <= off -> size_from E off fs < 32768 ->
  exists m', place_fields (Z.to_nat (number fs)) (Some i) off (st u v l m) =
    Done (None, size_from E off fs, 0%nat) (st u v l m') /\
    retouch (fun j => (j < i \/ c <= j)%nat \/ exists s, nth_error m j = Some s /\ sKind s <> 0x59) m m' /\
    fields_at E m' rp off i c fs.
Proof using HO pos.
  induction fs as [n t|n t fs IH]; intros rp i c off u v l m Li F D C O Z.
  - destruct F as (En & Ft). cbn [listed] in Li. destruct Li as (f & tp & Fa & h1 & h2 & h3 & h4 & h5 & Sh).
    cbn [size_from] in *. destruct (proj1 (sizeof_pos m D) t Ft) as (Zl & Zh). pose proof (up_ge off (sizeof E t)) as Ug.
    destruct (shaped_type E m _ _ tp t Sh) as (st0 & tt0 & Nt & Kt & Pt & St).
    destruct (align_st off f tp st0 tt0 u v l m Nt Kt Pt h3 O ltac:(rewrite St; lia)) as (al & Al & Au). rewrite St in Au.
    destruct Fa as (sf & Nf & Kf & Nm & Pf).
    set (g := fun f => mkFld (rSize f) (up off (sizeof E t)) (rRec f) (rPar f) (rNext f)).
    set (m1 := updl i (ffield g) m).
    assert (N1 : nth_error m1 i = Some (mkS (sName sf) (sKind sf) (PField (g f)))).
    { unfold m1. rewrite nth_updl, Nat.eqb_refl, Nf. cbn. unfold ffield. rewrite Pf. reflexivity. }
    exists m1. split.
    { change (Z.to_nat (number (FLast n t))) with 1%nat. cbn [place_fields]. unfold place_field. sx.
      erewrite bind_run by (eapply get_field_st; eassumption). cbv beta. sx. erewrite bind_run by exact Al. cbv beta zeta.
      rewrite Au. sx. sx. replace (DeclModel.u32 (up off (sizeof E t))) with (up off (sizeof E t))
        by (unfold DeclModel.u32; rewrite Z.mod_small; lia). fold g m1.
      sx. erewrite bind_run by (eapply get_field_st; [exact N1|reflexivity]). cbv beta. cbn [g rNext]. rewrite h4.
      rewrite h2, s16_id by lia. reflexivity. }
    split.
    { apply retouch_upd; [apply keeps_ffield|]. intros [h|(s & a & b)]; [lia|]. rewrite Nf in a. inversion a; subst s. contradiction. }
    cbn [fields_at]. exists (g f), tp. split; [eexists; split; [exact N1|auto]|].
    cbn [g rRec rSize rOff rPar rNext]. repeat (split; [assumption || reflexivity|]).
    pose proof (posE_describes own E HO m D) as PE. destruct (shaped_evolves own pos E PE) as (SE & _).
    eapply SE; [|exact Ft|apply Nat.le_refl|apply Nat.le_refl|exact Sh].
    unfold m1. eapply (evolves_upd own pos); [apply keeps_ffield|exact Nf|right; exact Kf|lia].
  - destruct F as (En & Ft & Ff). cbn [listed] in Li. destruct Li as (f & tp & j & Fa & h1 & h2 & h3 & h4 & h5 & Sh & Li).
    cbn [size_from] in *. destruct (proj1 (sizeof_pos m D) t Ft) as (Zl & Zh). pose proof (up_ge off (sizeof E t)) as Ug.
    pose proof (proj2 (sizeof_pos m D) fs Ff (up off (sizeof E t) + sizeof E t) ltac:(lia)) as Sg.
    destruct (shaped_type E m _ _ tp t Sh) as (st0 & tt0 & Nt & Kt & Pt & St).
    destruct (align_st off f tp st0 tt0 u v l m Nt Kt Pt h3 O ltac:(rewrite St; lia)) as (al & Al & Au). rewrite St in Au.
    destruct Fa as (sf & Nf & Kf & Nm & Pf).
    set (g := fun f => mkFld (rSize f) (up off (sizeof E t)) (rRec f) (rPar f) (rNext f)).
    set (m1 := updl i (ffield g) m).
    assert (N1 : nth_error m1 i = Some (mkS (sName sf) (sKind sf) (PField (g f)))).
    { unfold m1. rewrite nth_updl, Nat.eqb_refl, Nf. cbn. unfold ffield. rewrite Pf. reflexivity. }
    pose proof (posE_describes own E HO m D) as PE. destruct (shaped_evolves own pos E PE) as (SE & _).
    assert (V1 : forall c', evolves own pos (S i) c' m m1).
    { intros c'. unfold m1. eapply (evolves_upd own pos); [apply keeps_ffield|exact Nf|right; exact Kf|lia]. }
    assert (D1 : describes E m1) by (eapply describes_evolves; [exact HO|apply (V1 0%nat)|exact D]).
    assert (Li1 : listed m1 rp j c fs).
    { assert (G : forall fs' j', fine_fields E fs' -> (i < j')%nat -> listed m rp j' c fs' -> listed m1 rp j' c fs').
      { clear -V1 SE. induction fs' as [n0 t0|n0 t0 r IH]; intros j' F H; cbn [listed].
        - intros (f & tp & a1 & a2 & a3 & a4 & a5 & a6 & a7). exists f, tp.
          split; [eapply field_at_evolves; [apply (V1 c)|lia|exact a1]|]. repeat (split; [assumption|]).
          eapply SE; [apply (V1 c)|apply F| | |exact a7]; lia.
        - intros (f & tp & q & a1 & a2 & a3 & a4 & a5 & a6 & a7 & a8). exists f, tp, q. destruct F as (F1 & F2 & F3).
          split; [eapply field_at_evolves; [apply (V1 c)|lia|exact a1]|]. repeat (split; [assumption|]).
          split; [eapply SE; [apply (V1 c)|exact F2| | |exact a7]; lia|]. apply IH; [exact F3|lia|exact a8]. }
      apply G; [exact Ff|lia|exact Li]. }
    assert (L1 : length m1 = length m) by apply length_updl.
    destruct (IH rp j c (up off (sizeof E t) + sizeof E t) u v l m1 Li1 Ff D1 ltac:(lia) ltac:(lia) Z) as (m2 & e & Re & Fl).
    exists m2. split.
    { pose proof (number_pos fs). replace (Z.to_nat (number (FMore n t fs))) with (S (Z.to_nat (number fs))) by (cbn [number]; lia).
      cbn [place_fields]. unfold place_field. sx.
      erewrite bind_run by (eapply get_field_st; eassumption). cbv beta. sx. erewrite bind_run by exact Al. cbv beta zeta.
      rewrite Au. sx. sx. replace (DeclModel.u32 (up off (sizeof E t))) with (up off (sizeof E t))
        by (unfold DeclModel.u32; rewrite Z.mod_small; lia). fold g m1.
      sx. erewrite bind_run by (eapply get_field_st; [exact N1|reflexivity]). cbv beta. cbn [g rNext]. rewrite h4.
      rewrite h2, s16_id by lia. exact e. }
    assert (Re' : retouch (fun x => (x < j \/ c <= x)%nat \/ exists s, nth_error m1 x = Some s /\ sKind s <> 0x59) m1 m2) by exact Re.
    split.
    { apply (retouch_trans _ m m1 m2).
      - unfold m1. apply retouch_upd; [apply keeps_ffield|]. intros [h|(s & a & b)]; [lia|].
        rewrite Nf in a. inversion a; subst s. contradiction.
      - eapply retouch_weak; [|exact Re]. cbv beta. intros x [h|(s & a & b)]; [left; lia|].
        right. exists s. split; [|exact b]. unfold m1. rewrite nth_updl. destruct (x =? i)%nat eqn:Ex; [|exact a].
        apply Nat.eqb_eq in Ex. subst x. rewrite Nf in a. inversion a; subst s. contradiction. }
    cbn [fields_at]. exists (g f), tp, j. split.
    { eexists. split.
      - destruct Re as (_ & Re). destruct (Re i _ N1) as (x & a & b & cc & d). rewrite d in a by (left; left; lia). exact a.
      - auto. }
    cbn [g rRec rSize rOff rPar rNext]. repeat (split; [assumption || reflexivity|]).
    split; [|exact Fl].
    eapply SE; [|exact Ft|apply Nat.le_refl|apply Nat.le_refl|exact Sh].
    eapply evolves_trans; [apply (V1 j)|].
    eapply retouch_evolves; [exact Re| |].
    + cbv beta. intros x Hx. lia.
    + intros x s a b. cbv beta. right. exists s. split; [exact a|]. intros Ek. apply b. right. exact Ek.
Qed.

Lemma record_st td k name fs u v y r m :
  all_read td fs -> fine E (TRecord fs) -> describes E m -> may own pos name m -> (Z.to_nat (number fs) <= k)%nat ->
  exists u' v' m', new_complex_type td k name (st u v (written (TRecord fs) ++ RK y :: r) m) =
    Done (Some (length m)) (st u' v' (RK y :: r) m') /\
    grows own pos m m' /\ shaped E m' (length m) (length m') (length m) (TRecord fs) /\ called m' (length m) name.
Proof using HO.
  intros A (Ff & Z) D MY K. pose proof (may_seen _ _ _ _ MY) as NS.
  set (e0 := mkS name sTYPE (PType (mkTy sRECORD 0 0 0 0 0 None None))).
  set (m1 := m ++ [e0]).
  assert (G1 : grows own pos m m1) by (apply grows_app; unfold may in MY; unfold fresh; cbn; lia).
  assert (D1 : describes E m1) by (eapply describes_evolves; [exact HO|exact G1|exact D]).
  assert (L1 : length m1 = S (length m)) by (unfold m1; rewrite app_length; cbn; lia).
  assert (N1 : nth_error m1 (length m) = Some e0) by (unfold m1; rewrite nth_error_app2, Nat.sub_diag by lia; reflexivity).
  assert (O1 : old_ok m1 (length m) None).
  { split; [|discriminate]. eexists _, _. split; [exact N1|]. split; [reflexivity|]. left. exact NS. }
  destruct (fixed_st td (length m) fs k None u v (RK y :: r) m1 A Ff D1 O1 K) as (u2 & v2 & m2 & e2 & L2 & Li & Ol & Nw).
  assert (N2 : nth_error m2 (length m) = Some (mkS name sTYPE (PType (mkTy sRECORD 0 0 0 0 (number fs) None None)))).
  { rewrite (Ol _ _ N1). unfold touch. rewrite Nat.eqb_refl. reflexivity. }
  assert (V2 : evolves own pos (length m1) (length m2) m1 m2).
  { eapply touch_evolves; [exact O1|exact Ol|exact Nw|lia|lia|discriminate]. }
  assert (D2 : describes E m2) by (eapply describes_evolves; [exact HO|exact V2|exact D1]).
  destruct (place_st fs (length m) (length m1) (length m2) 0 u2 v2 (RK tEND :: RK y :: r) m2 Li Ff D2 ltac:(lia) ltac:(lia) Z)
    as (m3 & e3 & Re & Fl).
  cbn [sizeof] in Z. set (z := size_from E 0 fs) in *.
  set (m4 := updl (length m) (ftype (set_size z)) m3).
  assert (N3 : nth_error m3 (length m) = Some (mkS name sTYPE (PType (mkTy sRECORD 0 0 0 0 (number fs) None None)))).
  { destruct Re as (_ & Re). destruct (Re _ _ N2) as (x & a & b & cc & d). rewrite d in a by (left; left; lia). exact a. }
  assert (Zp : 0 <= z) by (apply (proj2 (sizeof_pos m D) fs Ff); lia).
  exists u2, v2, m4. split.
  { cbn [written app]. rewrite <- app_assoc. cbn [app]. unfold new_complex_type. sx. sx. unfold declare_record. sx.
    assert (P1 : posh own (w_fields fs ++ RK 137 :: RK y :: r)).
    { destruct fs as [n t|n t fs']; cbn [w_fields app posh]; destruct Ff as (En & _); pose proof (D n) as h; rewrite En in h;
        (split; [apply h|congruence]). }
    erewrite bind_run by (apply (add_type_st own); [exact P1|exact NS|lia]). cbv beta. fold e0 m1.
    sx. erewrite bind_run by exact e2. cbv beta.
    sx. erewrite bind_run by (eapply get_type_st; [exact N2|reflexivity]). cbv beta. cbn [tMax].
    sx. rewrite L1 in e3. erewrite bind_run by exact e3. cbv beta iota zeta.
    repeat sx.
    replace (DeclModel.u32 z) with z by (unfold DeclModel.u32; rewrite Z.mod_small; lia). reflexivity. }
  assert (R4 : retouch (fun j => (j < length m)%nat) m2 m4).
  { apply (retouch_trans _ m2 m3 m4).
    - eapply retouch_weak; [|exact Re]. cbv beta. intros j Hj. left. left. lia.
    - apply retouch_upd; [apply keeps_ftype|]. lia. }
  assert (G2 : grows own pos m m2).
  { split; [lia|]. split.
    - intros i s N. exists s. assert (i < length m)%nat by (apply nth_error_Some; congruence).
      split; [|auto]. rewrite (Ol i s).
      + unfold touch. replace (i =? length m)%nat with false by (symmetry; apply Nat.eqb_neq; lia). reflexivity.
      + unfold m1. rewrite nth_error_app1 by assumption. exact N.
    - intros i s Hi N. destruct (Nat.eq_dec i (length m)) as [->|Hn].
      + rewrite N2 in N. inversion N. unfold may in MY; unfold fresh; cbn; lia.
      + apply (Nw i s); [lia|exact N]. }
  assert (L4 : length m4 = length m2) by (destruct R4; assumption).
  assert (N4 : nth_error m4 (length m) = Some (mkS name sTYPE (PType (mkTy sRECORD 0 0 z 0 (number fs) None None)))).
  { unfold m4. rewrite nth_updl, Nat.eqb_refl, N3. reflexivity. }
  split.
  { eapply retouch_grows; [exact G2|exact R4|]. auto. }
  split; [|eexists; split; [exact N4|reflexivity]].
  cbn [shaped]. eexists. split.
  { split; [|eexists; split; [exact N4|split; reflexivity]]. lia. }
  cbn [tSize tPar tType tMax]. split; [reflexivity|]. split; [reflexivity|]. split; [reflexivity|]. split; [reflexivity|].
  pose proof (posE_describes own E HO m D) as PE. destruct (shaped_evolves own pos E PE) as (_ & FE).
  rewrite L1 in Fl. rewrite L4. eapply FE; [|exact Ff|apply Nat.le_refl|apply Nat.le_refl|exact Fl].
  unfold m4. eapply (evolves_upd own pos); [apply keeps_ftype|exact N3|left; exact NS|lia].
Qed.

End Rec.
