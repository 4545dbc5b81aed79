(** The compiler reading a well-formed type. *)

From Coq Require Import ZArith Bool List Lia ZifyBool.
From Verif Require Import Words ExprModel DeclModel DeclTypes DeclSpec DeclRun DeclRead DeclShape DeclArray DeclRecord.
Import ListNotations.
Open Scope Z_scope.

Lemma written_pos t : (1 <= length (written t))%nat.
Proof. destruct t; cbn [written]; unfold w_int; try destruct (_ <? 0); cbn [app length]; lia. Qed.

Lemma number_length : forall fs, number fs <= Z.of_nat (length (w_fields fs)).
Proof. induction fs as [n t|n t fs IH]; cbn [number w_fields length]; rewrite ?app_length; cbn [length]; lia. Qed.

Lemma more_length (more : list (Z * Z)) : (length more <= length (flat_map (fun i => RK 0x2c :: w_index i) more))%nat.
Proof. induction more as [|i more IH]; cbn [flat_map length app w_index]; lia. Qed.

Section Den.

Variable own : Z.
Variable pos : nat.
Variables (lev : nat) (stk np : Z) (fw : list fref) (er : list Z).
Notation st := (st lev stk np fw er).
Variable E : names.
Hypothesis HO : E own = EOther.
Notation reads := (reads own pos lev stk np fw er E).
Notation all_read := (all_read own pos lev stk np fw er E).

(** A type that is written out *)
Definition complex (t : ty) : Prop := match t with TName _ | TRange _ _ | TChars _ _ => False | _ => True end.

Definition parts_read (td : M nat) (t : ty) : Prop :=
  match t with
  | TArray _ _ _ t' => reads td t'
  | TRecord fs => all_read td fs
  | _ => True
  end.

(** Where its own entry is made *)
Definition place (t : ty) (m : list sym) : nat := match t with TSet _ _ => S (length m) | _ => length m end.

Lemma complex_st td k name t u v y r m :
  complex t -> parts_read td t -> fine E t -> describes E m -> y <> tLBRACK ->
  name <= 0 \/ (name = own /\ place t m = pos) -> (length (written t) <= k)%nat ->
  exists u' v' m', new_complex_type td k name (st u v (written t ++ RK y :: r) m) =
    Done (Some (place t m)) (st u' v' (RK y :: r) m') /\
    grows own pos m m' /\ shaped E m' (length m) (length m') (place t m) t /\ called m' (place t m) name.
Proof using HO.
  intros C P F D Y MY K. assert (NS : ~ seen own name) by (unfold seen; lia). destruct t as [n|lo hi|lo hi|n|lo hi|lo hi more t|fs]; try contradiction.
  - (* pointer *)
    destruct F as (z & f & En). destruct (described E m n z f D En) as (Pn & Zr & q & s & t & La & Ks & Ps & Ss & _).
    destruct (tid_named lev stk np fw er n y r u v m q s t La Ks Ps ltac:(lia) Y) as (u' & Ti).
    set (e := mkS name sTYPE (PType (mkTy sPOINTER 0 0 2 0 0 (Some q) None))).
    cbn [place] in *. exists u', (tSize t), (m ++ [e]).
    assert (G : grows own pos m (m ++ [e])) by (apply grows_app; unfold fresh; cbn; lia).
    split.
    { cbn [written app]. unfold new_complex_type. sx. sx. erewrite bind_run by exact Ti. cbv beta iota.
      erewrite bind_run by (apply (add_type_st own); [exact I|exact NS|unfold sPTR_SIZE; lia]). reflexivity. }
    split; [exact G|].
    assert (Ne : nth_error (m ++ [e]) (length m) = Some e) by (rewrite nth_error_app2, Nat.sub_diag by lia; reflexivity).
    split; [|exists e; split; [exact Ne|reflexivity]].
    cbn [shaped]. eexists. split; [split; [rewrite app_length; cbn; lia|exists e; split; [exact Ne|split; reflexivity]]|].
    cbn. split; [reflexivity|]. split; [reflexivity|]. exists q, s. split; [|reflexivity].
    eapply (latest_evolves own pos); [|exact G|exact La]. split; [exact Pn|congruence].
  - (* set *)
    destruct F as (L1 & L2 & L3).
    destruct (range_st own lev stk np fw er k (-1) lo hi u v (RK y) r m L1 L2 ltac:(unfold seen; lia) I) as (u' & Rg).
    set (m1 := m ++ [e_range (-1) lo hi]).
    set (e := mkS name sTYPE (PType (mkTy sSET sSUBRANGE 0 8 lo hi (Some (length m)) None))).
    cbn [place] in *. exists u', v, (m1 ++ [e]).
    assert (G1 : grows own pos m m1) by (apply grows_app; left; cbn; lia).
    assert (Lm1 : length m1 = S (length m)) by (unfold m1; rewrite app_length; cbn; lia).
    assert (G : grows own pos m (m1 ++ [e])) by (eapply grows_trans; [exact G1|apply grows_app; unfold fresh; cbn; lia]).
    assert (N1 : nth_error m1 (length m) = Some (e_range (-1) lo hi)) by (unfold m1; rewrite nth_error_app2, Nat.sub_diag by lia; reflexivity).
    split.
    { cbn [written app]. rewrite <- app_assoc. cbn [app].
      unfold new_complex_type. sx. sx. sx. unfold ordinal_type_identifier. sx.
      erewrite bind_run.
      2: { apply tid_none. destruct (first_signed own lev stk np fw er lo u v (RK 11 :: w_int hi ++ RK y :: r) m) as ([h|h] & _);
             rewrite h; discriminate. }
      cbv beta iota. sx. unfold declare_simple_type. sx. erewrite bind_run by exact Rg. cbv beta iota. sx.
      fold m1. erewrite bind_run by (eapply get_type_st; [exact N1|reflexivity]). cbv beta. cbn [tType]. ck.
      erewrite bind_run by (apply (add_type_st own); [exact I|exact NS|unfold sSET_SIZE; lia]). cbv beta.
      sx. cbn [tMax tMin]. rewrite s16_id by lia. unfold sSET_MAXELEM. replace (64 <? hi - lo + 1) with false by lia.
      sx. rewrite updl_last, Lm1. reflexivity. }
    split; [exact G|].
    assert (Ne : nth_error (m1 ++ [e]) (S (length m)) = Some e) by (rewrite <- Lm1, nth_error_app2, Nat.sub_diag by lia; reflexivity).
    split; [|exists e; split; [exact Ne|reflexivity]].
    cbn [shaped]. eexists. split; [split; [rewrite app_length, Lm1; cbn; lia|exists e; split; [exact Ne|split; reflexivity]]|].
    cbn. auto.
  - (* array *)
    destruct (array_st own pos lev stk np fw er E HO td k name lo hi more t u v y r m P F D Y MY) as (u' & m' & e & G & Sh & Ca).
    { cbn [written length] in K. rewrite !app_length in K. pose proof (more_length more). cbn [w_index length] in K. lia. }
    eexists u', _, m'. split; [exact e|]. auto.
  - (* record *)
    destruct (record_st own pos lev stk np fw er E HO td k name fs u v y r m P F D MY) as (u' & v' & m' & e & G & Sh & Ca).
    { cbn [written length] in K. rewrite app_length in K. pose proof (number_length fs). pose proof (number_pos fs). lia. }
    eexists u', v', m'. split; [exact e|]. auto.
Qed.

Lemma not_complex_st td k name u v l m :
  match l with RInt _ :: _ | RChr _ :: _ => True | RK c :: _ => c = tMINUS | _ => False end ->
  new_complex_type td k name (st u v l m) = Done None (st u v l m).
Proof using.
  intros H. destruct l as [|[c|z|z|z] l]; try contradiction; [subst c| |]; unfold new_complex_type; sx; reflexivity.
Qed.

Lemma w_int_first z l : match w_int z ++ l with RInt _ :: _ | RChr _ :: _ => True | RK c :: _ => c = tMINUS | _ => False end.
Proof using. unfold w_int. destruct (z <? 0); cbn; auto. Qed.

(** The first word of a type that is not a name *)
Lemma first_st t u v y r m : match t with TName _ => False | _ => True end ->
  gTok (st u v (written t ++ RK y :: r) m) <> sTYPE.
Proof using.
  intros H. destruct t as [n|lo hi|lo hi|n|lo hi|lo hi more t|fs]; try contradiction; cbn [written]; unfold w_int;
    try destruct (lo <? 0); cbn; discriminate.
Qed.

Theorem denoter :
  (forall t n name, (length (written t) <= n)%nat -> name <= 0 -> fine E t -> reads (type_denoter n name) t) /\
  (forall fs n name, (length (w_fields fs) <= n)%nat -> name <= 0 -> fine_fields E fs -> all_read (type_denoter n name) fs).
Proof using HO.
  assert (ANON : -1 <= 0) by lia.
  assert (STEP : forall t n name, match t with TName _ => False | _ => True end ->
    parts_read (type_denoter n (-1)) t -> (length (written t) <= S n)%nat -> name <= 0 -> fine E t ->
    reads (type_denoter (S n) name) t).
  { intros t n name NT P L NP F u v y r m D Y. assert (NS : ~ seen own name) by (unfold seen; lia).
    assert (FIN : forall p s ty u' v' m', nth_error m' p = Some s -> sParm s = PType ty -> tSize ty = sizeof E t ->
       (ty0 <- get_type p;; set_var_size (tSize ty0);; ret p) (st u' v' (RK y :: r) m') =
       Done p (st u' (sizeof E t) (RK y :: r) m')).
    { intros p s ty u' v' m' N Ps S. erewrite bind_run by (eapply get_type_st; eassumption). cbv beta. sx.
      destruct (proj1 (sizeof_pos E m D) t F). rewrite s32_id by lia. rewrite S. reflexivity. }
    assert (TI : type_identifier (st u v (written t ++ RK y :: r) m) = Done None (st u v (written t ++ RK y :: r) m)).
    { apply tid_none. apply first_st. exact NT. }
    assert (CX : complex t \/ (exists lo hi, t = TRange lo hi) \/ (exists lo hi, t = TChars lo hi)).
    { destruct t; cbn; eauto 6. }
    destruct CX as [C|[(lo & hi & ->)|(lo & hi & ->)]].
    - destruct (complex_st (type_denoter n (-1)) (S n) name t u v y r m C P F D Y (or_introl NP) L) as (u' & v' & m' & e & G & Sh & Ca).
      exists (place t m), m', u'. split; [|split; [exact G|exact Sh]].
      cbn [type_denoter]. erewrite bind_run by exact TI. cbv beta iota. erewrite bind_run by exact e. cbv beta iota. sx.
      destruct (shaped_type E m' _ _ _ t Sh) as (s & ty & N & K & Ps & S). cbv beta iota. eapply FIN; eassumption.
    - destruct F as (F1 & F2).
      destruct (range_st own lev stk np fw er (S n) name lo hi u v (RK y) r m F1 F2 NS I) as (u' & Rg).
      set (m' := m ++ [e_range name lo hi]) in *.
      assert (N : nth_error m' (length m) = Some (e_range name lo hi)) by (unfold m'; rewrite nth_error_app2, Nat.sub_diag by lia; reflexivity).
      exists (length m), m', u'. split.
      { cbn [type_denoter]. erewrite bind_run by exact TI. cbv beta iota.
        cbn [written]. rewrite <- app_assoc. cbn [app].
        erewrite bind_run by (apply not_complex_st; apply w_int_first). cbv beta iota.
        sx. erewrite bind_run by exact Rg. cbv beta iota. sx. cbv beta iota. eapply FIN; [exact N|reflexivity|reflexivity]. }
      split; [apply grows_app; left; exact NP|]. cbn [shaped]. eexists.
      split; [split; [unfold m'; rewrite app_length; cbn; lia|eexists; split; [exact N|split; reflexivity]]|]. cbn. auto 6.
    - pose proof F as F0. pose proof (chars_st own lev stk np fw er (S n) name lo hi u v (RK y) r m F0 NS I) as Rg.
      set (m' := m ++ [e_chars name lo hi]) in *.
      assert (N : nth_error m' (length m) = Some (e_chars name lo hi)) by (unfold m'; rewrite nth_error_app2, Nat.sub_diag by lia; reflexivity).
      exists (length m), m', hi. split.
      { cbn [type_denoter]. erewrite bind_run by exact TI. cbv beta iota.
        cbn [written app].
        erewrite bind_run by (apply not_complex_st; exact I). cbv beta iota.
        sx. erewrite bind_run by exact Rg. cbv beta iota. sx. cbv beta iota. eapply FIN; [exact N|reflexivity|reflexivity]. }
      split; [apply grows_app; left; exact NP|]. cbn [shaped]. eexists.
      split; [split; [unfold m'; rewrite app_length; cbn; lia|eexists; split; [exact N|split; reflexivity]]|]. cbn. auto 6. }
  assert (POS : forall t n (name : Z), (length (written t) <= n)%nat -> exists n', n = S n').
  { intros t n _ L. pose proof (written_pos t). destruct n; [lia|]. eauto. }
  apply ty_fields_ind.
  - (* a name *)
    intros nm n name L NS F u v y r m D Y. destruct n as [|n]; [cbn in L; lia|].
    destruct F as (z & f & En). destruct (described E m nm z f D En) as (Pn & Zr & q & s & t & La & Ks & Ps & Ss & _).
    destruct (tid_named lev stk np fw er nm y r u v m q s t La Ks Ps ltac:(lia) Y) as (u' & Ti).
    assert (SZ : tSize t = sizeof E (TName nm)) by (cbn [sizeof]; rewrite En; exact Ss).
    exists q, m, u'. split.
    { cbn [type_denoter written app]. erewrite bind_run by exact Ti. cbv beta iota. unfold ret. rewrite SZ. reflexivity. }
    split; [apply grows_refl|]. cbn [shaped]. exists s, t. auto.
  - intros lo hi n name L NS F. destruct (POS (TRange lo hi) n name L) as (n' & ->). apply STEP; try assumption; exact I.
  - intros lo hi n name L NS F. destruct (POS (TChars lo hi) n name L) as (n' & ->). apply STEP; try assumption; exact I.
  - intros nm n name L NS F. destruct (POS (TPointer nm) n name L) as (n' & ->). apply STEP; try assumption; exact I.
  - intros lo hi n name L NS F. destruct (POS (TSet lo hi) n name L) as (n' & ->). apply STEP; try assumption; exact I.
  - intros lo hi more t IH n name L NS F. destruct (POS (TArray lo hi more t) n name L) as (n' & ->).
    apply STEP; try assumption; try exact I. cbn [parts_read]. apply IH; [|exact ANON|apply F].
    cbn [written length] in L. rewrite !app_length in L. cbn [length] in L. lia.
  - intros fs IH n name L NS F. destruct (POS (TRecord fs) n name L) as (n' & ->).
    apply STEP; try assumption; try exact I. cbn [parts_read]. apply IH; [|exact ANON|apply F].
    cbn [written length] in L. rewrite app_length in L. cbn [length] in L. lia.
  - intros nm t IH n name L NS (_ & F). cbn [DeclRecord.all_read]. apply IH; [|exact NS|exact F]. cbn [w_fields length] in L. lia.
  - intros nm t IH fs IHf n name L NS (_ & F & Ff). cbn [w_fields length] in L. rewrite app_length in L. cbn [length] in L.
    split; [apply IH|apply IHf]; try assumption; lia.
Qed.

End Den.
