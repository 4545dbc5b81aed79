(** The compiler reading a well-formed type: arrays and records. *)

From Coq Require Import ZArith Bool List Lia ZifyBool.
From Verif Require Import Words ExprModel DeclModel DeclTypes DeclSpec DeclRun DeclRead.
Import ListNotations.
Open Scope Z_scope.

Lemma list_ext {A} : forall l l' : list A, (forall j, nth_error l j = nth_error l' j) -> l = l'.
Proof.
  induction l as [|x l IH]; intros [|x' l'] H; try reflexivity.
  - specialize (H 0%nat). discriminate.
  - specialize (H 0%nat). discriminate.
  - f_equal; [specialize (H 0%nat); cbn in H; congruence|]. apply IH. intros j. exact (H (S j)).
Qed.

Lemma latest_unique m n p s p' s' : latest m n p s -> latest m n p' s' -> p = p' /\ s = s'.
Proof.
  intros (N & En & Ek & La) (N' & En' & Ek' & La').
  destruct (lt_eq_lt_dec p p') as [[H|H]|H].
  - exfalso. apply Ek'. exact (La p' s' H N' En').
  - subst. split; congruence.
  - exfalso. apply Ek. exact (La' p s H N En).
Qed.

(** ** Facts about [shaped] *)

Lemma shaped_type E m b c p t : shaped E m b c p t ->
  exists s r, nth_error m p = Some s /\ sKind s = 0x44 /\ sParm s = PType r /\ tSize r = sizeof E t.
Proof.
  intros H. destruct t; cbn [shaped] in H;
    try (destruct H as (r & (_ & s & N & K & P) & S & _); exists s, r; auto).
  destruct H as (s & r & (N & _) & K & P & S). exists s, r. auto.
Qed.

Lemma shaped_element E m b c p t : describes E m -> element E t -> shaped E m b c p t ->
  exists s r, nth_error m p = Some s /\ sParm s = PType r /\ tSize r = sizeof E t /\ tPar r = None.
Proof.
  intros D El H. destruct t; cbn [element] in El; try contradiction.
  - cbn [shaped] in H. destruct H as (s & r & La & K & P & S). exists s, r.
    pose proof La as La0. destruct La as (N & _). repeat (split; [assumption|]).
    destruct (E n) as [z f| |] eqn:En; try contradiction.
    destruct (described E m n z f D En) as (_ & _ & p' & s' & t' & La' & K' & P' & S' & F).
    destruct (latest_unique _ _ _ _ _ _ La0 La') as (<- & <-).
    rewrite P in P'. inversion P'; subst t'. apply F. exact El.
  - cbn [shaped] in H. destruct H as (r & (_ & s & N & K & P) & S & Q & _). exists s, r. auto.
  - cbn [shaped] in H. destruct H as (r & (_ & s & N & K & P) & S & Q & _). exists s, r. auto.
  - cbn [shaped] in H. destruct H as (r & (_ & s & N & K & P) & S & Q & _). exists s, r. auto.
Qed.

Lemma type_at_widen m b c b' c' p t : (b' <= b)%nat -> (c <= c')%nat -> type_at m b c p t -> type_at m b' c' p t.
Proof. intros B C (H & R). split; [lia|exact R]. Qed.

Lemma indexes_widen m b c b' c' : (b' <= b)%nat -> (c <= c')%nat ->
  forall is q u, indexes m b c q u is -> indexes m b' c' q u is.
Proof.
  intros B C. induction is as [|i is IH]; intros q u; cbn [indexes]; [auto|].
  intros (p & t & -> & T & k1 & k2 & h1 & h2 & h3 & h4). exists p, t. split; [reflexivity|].
  split; [eapply type_at_widen; eassumption|]. auto 10.
Qed.

Lemma shaped_widen E :
  (forall t m b c p b' c', (b' <= b)%nat -> (c <= c')%nat -> shaped E m b c p t -> shaped E m b' c' p t) /\
  (forall fs m rp off i c c', (c <= c')%nat -> fields_at E m rp off i c fs -> fields_at E m rp off i c' fs).
Proof.
  apply ty_fields_ind.
  - intros n m b c p b' c' B C H. exact H.
  - intros lo hi m b c p b' c' B C (r & T & h). exists r. split; [eapply type_at_widen; eassumption|exact h].
  - intros lo hi m b c p b' c' B C (r & T & h). exists r. split; [eapply type_at_widen; eassumption|exact h].
  - intros n m b c p b' c' B C (r & T & h). exists r. split; [eapply type_at_widen; eassumption|exact h].
  - intros lo hi m b c p b' c' B C (r & T & h). exists r. split; [eapply type_at_widen; eassumption|exact h].
  - intros lo hi more t IH m b c p b' c' B C (r & T & h1 & h2 & h3 & h4 & q & h5 & h6). exists r.
    split; [eapply type_at_widen; eassumption|]. split; [exact h1|]. split; [exact h2|]. split; [exact h3|].
    split; [eapply indexes_widen; eassumption|]. exists q. split; [exact h5|]. eapply IH; eassumption.
  - intros fs IH m b c p b' c' B C (r & T & h1 & h2 & h3 & h4 & h5). exists r.
    split; [eapply type_at_widen; eassumption|]. repeat (split; [assumption|]). eapply IH; eassumption.
  - intros n t IH m rp off i c c' C (f & tp & h1 & h2 & h3 & h4 & h5 & h6 & h7 & h8).
    exists f, tp. repeat (split; [assumption|]). split; [lia|]. eapply IH; [| |exact h8]; lia.
  - intros n t IH fs IHf m rp off i c c' C (f & tp & j & h1 & h2 & h3 & h4 & h5 & h6 & h7 & h8 & h9).
    exists f, tp, j. repeat (split; [assumption|]). split; [lia|]. split; [exact h8|].
    eapply IHf; [|exact h9]; lia.
Qed.

(** ** Index types *)

(** The entry of an index type, and of an array with [k] of them *)
Definition e_index (d : Z) (i : Z * Z) (nx : option nat) : sym :=
  mkS (-1) sTYPE (PType (mkTy sSUBRANGE sINT d 2 (fst i) (snd i) None nx)).
Definition e_array (name : Z) (k : nat) (ix : option nat) : sym :=
  mkS name sTYPE (PType (mkTy sARRAY 0 (Z.of_nat k) 0 0 0 None ix)).
Fixpoint e_indexes (b : nat) (k : nat) (is : list (Z * Z)) : list sym :=
  match is with
  | [] => []
  | i :: r => e_index (Z.of_nat k) i (match r with [] => None | _ => Some (S b) end) :: e_indexes (S b) (S k) r
  end.
Definition with_indexes (name : Z) (m : list sym) (is : list (Z * Z)) : list sym :=
  m ++ e_array name (length is) (match is with [] => None | _ => Some (S (length m)) end) ::
  e_indexes (S (length m)) 1 is.

Lemma nth_e_indexes : forall is b k j,
  nth_error (e_indexes b k is) j =
  match nth_error is j with
  | Some i => Some (e_index (Z.of_nat (k + j)) i (if (S j =? length is)%nat then None else Some (b + S j)%nat))
  | None => None
  end.
Proof.
  induction is as [|i is IH]; intros b k j; cbn [e_indexes]; [destruct j; reflexivity|].
  destruct j as [|j].
  - cbn [nth_error]. rewrite Nat.add_0_r. do 2 f_equal. destruct is; cbn; [reflexivity|]. f_equal. lia.
  - cbn [nth_error]. rewrite IH. destruct (nth_error is j); [|reflexivity]. f_equal. f_equal.
    + f_equal. lia.
    + cbn [length]. change (S (S j) =? S (length is))%nat with (S j =? length is)%nat.
      destruct (S j =? length is)%nat; [reflexivity|]. f_equal. lia.
Qed.
Lemma length_e_indexes : forall is b k, length (e_indexes b k is) = length is.
Proof. induction is as [|i is IH]; intros; cbn; [reflexivity|]. f_equal. apply IH. Qed.

Lemma length_with name m is : length (with_indexes name m is) = (length m + S (length is))%nat.
Proof. unfold with_indexes. rewrite app_length. cbn [length]. rewrite length_e_indexes. reflexivity. Qed.

Lemma nth_with name m is j :
  nth_error (with_indexes name m is) j =
  if (j <? length m)%nat then nth_error m j
  else if (j =? length m)%nat then
    Some (e_array name (length is) (match is with [] => None | _ => Some (S (length m)) end))
  else match nth_error is (j - S (length m)) with
       | Some i => Some (e_index (Z.of_nat (j - length m)) i
                     (if (j =? length m + length is)%nat then None else Some (S j)))
       | None => None
       end.
Proof.
  unfold with_indexes. destruct (j <? length m)%nat eqn:A.
  - apply Nat.ltb_lt in A. apply nth_error_app1. exact A.
  - apply Nat.ltb_ge in A. rewrite nth_error_app2 by exact A. destruct (j =? length m)%nat eqn:B.
    + apply Nat.eqb_eq in B. subst j. rewrite Nat.sub_diag. reflexivity.
    + apply Nat.eqb_neq in B. replace (j - length m)%nat with (S (j - S (length m))) by lia. cbn [nth_error].
      rewrite nth_e_indexes. set (q := (j - S (length m))%nat).
      replace (1 + q)%nat with (S q) by lia. replace (S (length m) + S q)%nat with (S j) by lia.
      destruct (nth_error is q) as [i|] eqn:N; [|reflexivity]. do 2 f_equal.
      replace (S q =? length is)%nat with (j =? length m + length is)%nat; [reflexivity|].
      unfold q. apply eq_true_iff_eq. rewrite !Nat.eqb_eq. lia.
Qed.

(** One more index type: the steps of the loop *)
Lemma add_one name m is i :
  (length is < 255)%nat ->
  let ap := length m in
  let ip := (length m + S (length is))%nat in
  let t1 := with_indexes name m is ++ [e_index 0 i None] in
  let t2 := updl ap (ftype (fun t => set_dim (u8 (tDim t + 1)) t)) t1 in
  let t3 := updl ip (ftype (set_dim (Z.of_nat (S (length is))))) t2 in
  let t4 := updl (match is with [] => ap | _ => (length m + length is)%nat end) (ftype (set_idx (Some ip))) t3 in
  t4 = with_indexes name m (is ++ [i]).
Proof.
  intros L ap ip t1 t2 t3 t4. apply list_ext. intros j. unfold t4, t3, t2, t1.
  rewrite !nth_updl. rewrite nth_with. rewrite !app_length. cbn [length].
  assert (LW := length_with name m is).
  destruct (lt_eq_lt_dec j (length m)) as [[H|H]|H].
  - replace (j <? length m)%nat with true by (symmetry; apply Nat.ltb_lt; exact H).
    rewrite nth_error_app1 by lia. rewrite nth_with.
    replace (j <? length m)%nat with true by (symmetry; apply Nat.ltb_lt; exact H).
    replace (j =? ap)%nat with false by (symmetry; apply Nat.eqb_neq; unfold ap; lia).
    replace (j =? ip)%nat with false by (symmetry; apply Nat.eqb_neq; unfold ip; lia).
    destruct is as [|i0 is].
    + replace (j =? ap)%nat with false by (symmetry; apply Nat.eqb_neq; unfold ap; lia). reflexivity.
    + replace (j =? length m + length (i0 :: is))%nat with false by (symmetry; apply Nat.eqb_neq; lia). reflexivity.
  - subst j. rewrite Nat.ltb_irrefl, Nat.eqb_refl. rewrite nth_error_app1 by lia. rewrite nth_with.
    rewrite Nat.ltb_irrefl, Nat.eqb_refl.
    replace (length m =? ap)%nat with true by (symmetry; apply Nat.eqb_eq; reflexivity).
    replace (length m =? ip)%nat with false by (symmetry; apply Nat.eqb_neq; unfold ip; lia).
    assert (U : u8 (Z.of_nat (length is) + 1) = Z.of_nat (length is + 1))
      by (unfold u8; rewrite Z.mod_small by lia; lia).
    destruct is as [|i0 is].
    + replace (length m =? ap)%nat with true by (symmetry; apply Nat.eqb_eq; reflexivity).
      unfold ip. cbn [length]. replace (length m + 1)%nat with (S (length m)) by lia. reflexivity.
    + replace (length m =? length m + length (i0 :: is))%nat with false
        by (symmetry; apply Nat.eqb_neq; cbn [length]; lia).
      cbn [option_map]. unfold ftype, e_array at 1. cbn [sParm set_dim tType tSub tDim tSize tMin tMax tPar tIdx sName sKind].
      rewrite U. reflexivity.
  - replace (j <? length m)%nat with false by (symmetry; apply Nat.ltb_ge; lia).
    replace (j =? length m)%nat with false by (symmetry; apply Nat.eqb_neq; lia).
    replace (j =? ap)%nat with false by (symmetry; apply Nat.eqb_neq; unfold ap; lia).
    destruct (lt_eq_lt_dec j ip) as [[H'|H']|H'].
    + rewrite nth_error_app1 by (unfold ip in H'; lia). rewrite nth_with.
      replace (j <? length m)%nat with false by (symmetry; apply Nat.ltb_ge; lia).
      replace (j =? length m)%nat with false by (symmetry; apply Nat.eqb_neq; lia).
      replace (j =? ip)%nat with false by (symmetry; apply Nat.eqb_neq; lia).
      assert (Q : (j - S (length m) < length is)%nat) by (unfold ip in H'; lia).
      rewrite nth_error_app1 by exact Q.
      destruct (nth_error is (j - S (length m))) as [x|] eqn:N; [|apply nth_error_None in N; lia].
      replace (j =? length m + (length is + 1))%nat with false by (symmetry; apply Nat.eqb_neq; lia).
      destruct is as [|i0 is]; [cbn [length] in Q; lia|].
      destruct (j =? length m + length (i0 :: is))%nat eqn:Z.
      * apply Nat.eqb_eq in Z. replace (S j) with ip by (unfold ip; lia). reflexivity.
      * reflexivity.
    + rewrite nth_error_app2 by (unfold ip in H'; lia). rewrite LW.
      replace (j - (length m + S (length is)))%nat with 0%nat by (unfold ip in H'; lia). cbn [nth_error].
      replace (j =? ip)%nat with true by (symmetry; apply Nat.eqb_eq; exact H').
      replace (j - S (length m))%nat with (length is + 0)%nat by (unfold ip in H'; lia).
      rewrite nth_error_app2 by lia. replace (length is + 0 - length is)%nat with 0%nat by lia. cbn [nth_error].
      replace (j =? length m + (length is + 1))%nat with true by (symmetry; apply Nat.eqb_eq; unfold ip in H'; lia).
      assert (G : Z.of_nat (j - length m) = Z.of_nat (S (length is))) by (unfold ip in H'; lia). rewrite G.
      destruct is as [|i0 is].
      * replace (j =? ap)%nat with false by (symmetry; apply Nat.eqb_neq; unfold ap; lia). reflexivity.
      * replace (j =? length m + length (i0 :: is))%nat with false
          by (symmetry; apply Nat.eqb_neq; unfold ip in H'; lia). reflexivity.
    + rewrite (proj2 (nth_error_None _ _)) by (rewrite app_length, LW; cbn [length]; unfold ip in H'; lia).
      rewrite (proj2 (nth_error_None (is ++ [i]) _)) by (rewrite app_length; cbn [length]; unfold ip in H'; lia).
      destruct (j =? ip)%nat; destruct is; destruct (_ =? _)%nat; reflexivity.
Qed.

Lemma in_range_count i : in_range i -> 1 <= count i <= 65535.
Proof. unfold in_range, count. lia. Qed.

Lemma product_pos : forall is u, Forall in_range is -> 0 < u -> u <= fold_left (fun z i => z * count i) is u.
Proof.
  induction is as [|i is IH]; intros u F P; cbn [fold_left]; [lia|]. inversion F; subst.
  pose proof (in_range_count i H1). specialize (IH (u * count i) H2). nia.
Qed.

Section Array.

Variable own : Z.
Variables (lev : nat) (stk np : Z) (fw : list fref) (er : list Z).
Notation st := (st lev stk np fw er).

Definition lastof (m : list sym) (dn : list (Z * Z)) : option nat :=
  match dn with [] => None | _ => Some (length m + length dn)%nat end.

Lemma not_seen z : z <= 0 -> ~ seen own z.
Proof using. unfold seen. lia. Qed.

(** An index type in brackets *)
Lemma index_type_st i x l u v m : in_range i ->
  array_index_type (st u v (w_index i ++ RK x :: l) m) =
  Done (Some (length m)) (st (snd i) v (RK x :: l) (m ++ [e_index 0 i None])).
Proof using.
  intros [H1 H2]. unfold array_index_type, w_index. cbn [app]. sx. sx. cbv beta iota delta [orb]. sx. sx. sx. sx. sx. sx.
  replace (snd i <? fst i) with false by lia. sx. unfold add_index.
  erewrite bind_run by (apply (add_type_st 0); [exact I|unfold seen; lia|unfold sINT_SIZE; lia]).
  sx. rewrite updl_last. rewrite !s32_id by lia. reflexivity.
Qed.

Lemma index_list_st name m : ~ seen own name -> forall more i dn k x u v r, Forall in_range (i :: more) ->
  (length dn + S (length more) <= 255)%nat -> (length more < k)%nat ->
  exists u', index_list k (length m) (lastof m dn)
    (st u v (RK x :: w_index i ++ flat_map (fun i => RK 0x2c :: w_index i) more ++ RK 0x5d :: r)
        (with_indexes name m dn)) =
    Done tt (st u' v (RK 0x5d :: r) (with_indexes name m (dn ++ i :: more))).
Proof using.
  intros NS. induction more as [|i2 more IH]; intros i dn k x u v r F L K.
  - exists (snd i). destruct k as [|k]; [cbn in K; lia|]. cbn [index_list flat_map app]. sx.
    inversion F; subst. erewrite bind_run by (apply index_type_st; assumption). cbv beta iota. sx.
    rewrite length_with.
    sx. sx. cbv beta.
    erewrite (bind_run (get_type (length m))).
    2: { eapply get_type_st.
         - rewrite nth_updl, Nat.eqb_refl. rewrite nth_error_app1 by (rewrite length_with; lia).
           rewrite nth_with, Nat.ltb_irrefl, Nat.eqb_refl. reflexivity.
         - reflexivity. }
    cbv beta. cbn [ftype e_array sParm set_dim tDim]. repeat sx.
    assert (U : u8 (Z.of_nat (length dn) + 1) = Z.of_nat (S (length dn)))
      by (unfold u8; cbn [length] in L; rewrite Z.mod_small by lia; lia).
    rewrite U.
    pose proof (add_one name m dn i ltac:(cbn [length] in L; lia)) as A. cbv zeta in A.
    unfold lastof. destruct dn as [|i0 dn].
    + sx. rewrite A. repeat sx. reflexivity.
    + sx. rewrite A. repeat sx. reflexivity.
  - inversion F as [|? ? F1 F2]; subst.
    destruct k as [|k]; [cbn in K; lia|].
    destruct (IH i2 (dn ++ [i]) k 0x2c (snd i) v r F2) as (u' & IH').
    { rewrite app_length. cbn [length] in *. lia. }
    { cbn [length] in K. lia. }
    exists u'. cbn [index_list flat_map app]. sx.
    erewrite bind_run by (apply index_type_st; assumption). cbv beta iota. sx.
    rewrite length_with.
    sx. sx. cbv beta.
    erewrite (bind_run (get_type (length m))).
    2: { eapply get_type_st.
         - rewrite nth_updl, Nat.eqb_refl. rewrite nth_error_app1 by (rewrite length_with; lia).
           rewrite nth_with, Nat.ltb_irrefl, Nat.eqb_refl. reflexivity.
         - reflexivity. }
    cbv beta. cbn [ftype e_array sParm set_dim tDim]. repeat sx.
    assert (U : u8 (Z.of_nat (length dn) + 1) = Z.of_nat (S (length dn)))
      by (unfold u8; cbn [length] in L; rewrite Z.mod_small by lia; lia).
    rewrite U.
    pose proof (add_one name m dn i ltac:(cbn [length] in L; lia)) as A. cbv zeta in A.
    assert (LO : Some (length m + S (length dn))%nat = lastof m (dn ++ [i])).
    { unfold lastof. destruct (dn ++ [i]) eqn:Ed; [destruct dn; discriminate|]. rewrite <- Ed, app_length.
      cbn [length]. do 2 f_equal. lia. }
    replace (dn ++ i :: i2 :: more) with ((dn ++ [i]) ++ i2 :: more) by (rewrite <- app_assoc; reflexivity).
    unfold lastof at 1. destruct dn as [|i0 dn].
    + sx. rewrite A. repeat sx. rewrite LO, <- app_assoc. exact IH'.
    + sx. rewrite A. repeat sx. rewrite LO, <- app_assoc. exact IH'.
Qed.

(** The units *)
Lemma unit_loop_st lo c : forall is b z n u v l m, is <> [] ->
  (forall j i, nth_error is j = Some i -> exists s t, nth_error m (b + j)%nat = Some s /\ sKind s = 0x44 /\ sParm s = PType t /\
     tType t = 0x55 /\ tSub t = 0x47 /\ tMin t = fst i /\ tMax t = snd i /\ tIdx t = if (S j =? length is)%nat then None else Some (b + S j)%nat) ->
  Forall in_range is -> (length is <= n)%nat -> 0 < z -> fold_left (fun z i => z * count i) is z < 65536 ->
  (lo <= b)%nat -> (b + length is <= c)%nat ->
  exists m', unit_loop n (Some b) z (st u v l m) = Done (fold_left (fun z i => z * count i) is z) (st u v l m') /\
    length m' = length m /\
    (forall j, (j < b \/ b + length is <= j)%nat -> nth_error m' j = nth_error m j) /\
    (forall j s, nth_error m j = Some s -> exists s', nth_error m' j = Some s' /\ sName s' = sName s /\ sKind s' = sKind s) /\
    indexes m' lo c (Some b) z is.
Proof using.
  induction is as [|i is IH]; intros b z n u v l m NE H F K P W B C; [congruence|].
  destruct n as [|n]; [cbn in K; lia|]. inversion F as [|? ? F1 F2]; subst.
  destruct (H 0%nat i eq_refl) as (s & t & N & Kd & Ps & ty1 & ty2 & h1 & h2 & h3). rewrite Nat.add_0_r in N.
  set (m1 := updl b (ftype (set_size z)) m).
  assert (N1 : nth_error m1 b = Some (mkS (sName s) (sKind s) (PType (set_size z t)))).
  { unfold m1. rewrite nth_updl, Nat.eqb_refl, N. cbn. unfold ftype. rewrite Ps. reflexivity. }
  pose proof (in_range_count i F1) as Cn. pose proof (product_pos is (z * count i) F2 ltac:(nia)) as W1.
  cbn [fold_left] in W.
  assert (ST : unit_loop (S n) (Some b) z (st u v l m) = unit_loop n (tIdx t) (z * count i) (st u v l m1)).
  { cbn [unit_loop]. sx. fold m1. erewrite bind_run by (eapply get_type_st; [exact N1|reflexivity]).
    cbv beta zeta. cbn [set_size tMax tMin tIdx]. rewrite h1, h2.
    unfold in_range, count in *.
    replace (out32 (snd i - fst i) || out32 (snd i - fst i + 1)) with false by (unfold out32; lia).
    unfold Words.u16. rewrite (Z.mod_small (snd i - fst i + 1)) by lia.
    unfold DeclModel.u32. rewrite Z.mod_small by nia. reflexivity. }
  rewrite ST.
  destruct is as [|i2 is].
  - cbn in h3. exists m1. rewrite h3. cbn [fold_left].
    split; [destruct n; reflexivity|]. split; [apply length_updl|]. split.
    { intros j Hj. unfold m1. rewrite nth_updl. destruct (j =? b)%nat eqn:Ej; [|reflexivity].
      apply Nat.eqb_eq in Ej. cbn [length] in Hj. lia. }
    split.
    { intros j x Nj. unfold m1. rewrite nth_updl, Nj. destruct (j =? b)%nat; cbn; eexists; (split; [reflexivity|]).
      - destruct (keeps_ftype (set_size z) x) as (k1 & k2 & _). auto.
      - auto. }
    cbn [indexes]. exists b, (set_size z t). split; [reflexivity|]. split.
    { split; [cbn [length] in C; lia|]. exists (mkS (sName s) (sKind s) (PType (set_size z t))). auto. }
    cbn [set_size tType tSub tMin tMax tSize tIdx]. auto 10.
  - cbn [length Nat.eqb] in h3. rewrite h3.
    replace (b + 1)%nat with (S b) by lia.
    destruct (IH (S b) (z * count i) n u v l m1) as (m' & e1 & e2 & e3 & e4 & e5).
    + discriminate.
    + intros j x Nj. destruct (H (S j) x Nj) as (s' & t' & N' & K' & P' & l1 & l2 & g1 & g2 & g3).
      exists s', t'. split.
      { unfold m1. rewrite nth_updl. replace (S b + j =? b)%nat with false by (symmetry; apply Nat.eqb_neq; lia).
        replace (S b + j)%nat with (b + S j)%nat by lia. exact N'. }
      repeat (split; [assumption|]). rewrite g3. cbn [length].
      change (S (S j) =? S (S (length is)))%nat with (S j =? S (length is))%nat.
      destruct (S j =? S (length is))%nat; [reflexivity|]. f_equal. lia.
    + exact F2.
    + cbn [length] in *. lia.
    + nia.
    + exact W.
    + lia.
    + cbn [length] in *. lia.
    + exists m'. split; [exact e1|]. split; [rewrite e2; apply length_updl|]. split.
      { intros j Hj. rewrite e3 by (cbn [length] in *; lia). unfold m1. rewrite nth_updl.
        destruct (j =? b)%nat eqn:Ej; [|reflexivity]. apply Nat.eqb_eq in Ej. cbn [length] in Hj. lia. }
      split.
      { intros j x Nj. destruct (j =? b)%nat eqn:Ej.
        - apply Nat.eqb_eq in Ej. subst j. rewrite Nj in N. inversion N; subst x.
          destruct (e4 b _ N1) as (s' & g1 & g2 & g3). exists s'. auto.
        - destruct (e4 j x) as (s' & g1 & g2 & g3); [unfold m1; rewrite nth_updl, Ej; exact Nj|]. exists s'. auto. }
      change (indexes m' lo c (Some b) z (i :: i2 :: is)) with
        (exists p t, Some b = Some p /\ type_at m' lo c p t /\ tType t = 0x55 /\ tSub t = 0x47 /\ tMin t = fst i /\ tMax t = snd i /\ tSize t = z /\
                indexes m' lo c (tIdx t) (z * count i) (i2 :: is)).
      exists b, (set_size z t). split; [reflexivity|]. split.
      { split; [cbn [length] in C; lia|]. exists (mkS (sName s) (sKind s) (PType (set_size z t))).
        split; [rewrite e3 by lia; exact N1|auto]. }
      cbn [set_size tType tSub tMin tMax tSize tIdx]. rewrite h3. replace (b + 1)%nat with (S b) by lia. auto 10.
Qed.

End Array.
